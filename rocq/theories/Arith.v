(** * Arith.v -- addition, subtraction, multiplication and division are
    correctly rounded *)
From Coq Require Import ZArith Reals List Bool Lia Lra ZifyBool.
From Flocq Require Import Core.
From Verif Require Import Machine Sig SpecSig Limbs SigProofs SigProofs2 SigProofs3 SigProofs4 SigProofs5 Ieee Spec Norm.
Import ListNotations.
Local Open Scope Z_scope.

Ltac Zify.zify_post_hook ::= idtac.

(** ** Values *)
Lemma value_normal : forall S x, category x = Normal ->
  value S x = sgnr (sign x) (IZR (sig x) * bpow r2 (exp x - (PRECISION S - 1))).
Proof. intros S x H. unfold value. rewrite H, signed_sgnr. symmetry. apply sgnr_mult. Qed.

Lemma value_zero : forall S x, category x = Zero -> value S x = 0%R.
Proof. intros S x H. unfold value. rewrite H. reflexivity. Qed.

Lemma canonical_i32 : forall S s e, sem_ok S -> canonical_normal S s e -> - 2 ^ 20 <= e <= 2 ^ 20.
Proof. intros S s e [H1 H2 H3 _] [_ [H _]]. lia. Qed.

Lemma wf_normal_canonical : forall S x, wf S x -> category x = Normal -> canonical_normal S (sig x) (exp x).
Proof. intros S x [_ [_ H]] E. rewrite E in H. exact H. Qed.

Lemma value_pos : forall S x, wf S x -> category x = Normal ->
  (0 < IZR (sig x) * bpow r2 (exp x - (PRECISION S - 1)))%R.
Proof.
  intros S x H E. destruct (wf_normal_canonical S x H E) as [H1 _].
  apply Rmult_lt_0_compat; [apply IZR_lt; lia|apply bpow_gt_0].
Qed.

Lemma value_format : forall S x, sem_ok S -> wf S x -> generic_format r2 (fexp S) (value S x).
Proof.
  intros S x HS H. destruct (category x) eqn:E; unfold value; rewrite E; try apply generic_format_0.
  rewrite signed_sgnr, <- sgnr_mult. apply format_canonical; [assumption|]. apply wf_normal_canonical; assumption.
Qed.

Lemma value_le_max : forall S x, sem_ok S -> wf S x -> (Rabs (value S x) <= max_finite S)%R.
Proof.
  intros S x HS H. destruct (category x) eqn:E.
  1,2,4: unfold value; rewrite E, Rabs_R0; unfold max_finite; apply Rmult_le_pos; [apply IZR_le|apply bpow_ge_0];
    pose proof (max_sig_bounds S HS); pose proof (p_pow S HS); lia.
  rewrite value_normal, sgnr_abs by (try assumption; apply Rlt_le, value_pos; assumption).
  apply finite_le_max; [assumption|]. apply wf_normal_canonical; assumption.
Qed.

Lemma rounded_format : forall S m x, generic_format r2 (fexp S) x -> rounded S m x = x.
Proof. intros S m x H. unfold rounded. apply round_generic; [apply valid_rnd_of|assumption]. Qed.

Lemma value_sign : forall S x zs, wf S x -> finite x -> (category x = Zero -> sign x = zs) -> has_sign (value S x) zs x.
Proof.
  intros S x zs H [E|E] Hz.
  - rewrite value_normal by assumption. pose proof (value_pos S x H E). unfold has_sign.
    destruct (sign x); cbn [sgnr]; repeat split; intros; try reflexivity; lra.
  - rewrite value_zero by assumption. unfold has_sign. repeat split; intros; try lra. auto.
Qed.

(** an exact result *)
Lemma cr_exact : forall {pol} S m x zs, sem_ok S -> wf S x -> finite x -> (category x = Zero -> sign x = zs) ->
  delivers pol S m (value S x) zs (OK, x).
Proof.
  intros pol S m x zs HS H Hf Hz. unfold delivers.
  pose proof (rounded_format S m _ (value_format S x HS H)) as R.
  split; [assumption|]. split; [apply value_sign; assumption|]. rewrite R. split.
  - intros _. split; [assumption|]. split; [reflexivity|]. split; [reflexivity|]. split; intros; contradiction.
  - intro Hgt. pose proof (value_le_max S x HS H). lra.
Qed.

Lemma cr_change_zs : forall {pol} S m x zs zs' res, x <> 0%R ->
  delivers pol S m x zs res -> delivers pol S m x zs' res.
Proof.
  intros pol S m x zs zs' [st f] Hx [H1 [H2 H3]]. split; [assumption|]. split; [|assumption].
  destruct H2 as [A [B _]]. split; [assumption|]. split; [assumption|]. intro; contradiction.
Qed.

Lemma rounded_0 : forall S m, rounded S m 0 = 0%R.
Proof. intros S m. apply round_0. apply valid_rnd_of. Qed.

Lemma finite_value_zero : forall S f, wf S f -> finite f -> value S f = 0%R -> category f = Zero.
Proof.
  intros S f H [E|E] Hv; [|assumption]. exfalso. rewrite value_normal in Hv by assumption.
  pose proof (value_pos S f H E). destruct (sign f); cbn [sgnr] in Hv; lra.
Qed.

Lemma max_finite_pos : forall S, sem_ok S -> (0 < max_finite S)%R.
Proof.
  intros S HS. unfold max_finite. pose proof (max_sig_bounds S HS). pose proof (p_pow S HS).
  apply Rmult_lt_0_compat; [apply IZR_lt; lia|apply bpow_gt_0].
Qed.

(** an exactly zero result: it is a zero, and its sign may be chosen *)
Lemma cr_zero_category : forall {pol} S m zs st f, sem_ok S -> delivers pol S m 0 zs (st, f) ->
  category f = Zero /\ st = OK.
Proof.
  intros pol S m zs st f HS [H1 [H2 [H3 _]]]. rewrite rounded_0, Rabs_R0 in H3.
  destruct (H3 ltac:(pose proof (max_finite_pos S HS); lra)) as [A [B [C _]]].
  split; [apply (finite_value_zero S); assumption|apply C; reflexivity].
Qed.

Lemma cr_zero_with_sign : forall {pol} S m zs st f zs', sem_ok S -> delivers pol S m 0 zs (st, f) ->
  delivers pol S m 0 zs' (st, with_sign f zs').
Proof.
  intros pol S m zs st f zs' HS H. destruct (cr_zero_category S m zs st f HS H) as [Hc Hs]. subst st.
  destruct H as [[W1 [W2 _]] _]. rewrite with_sign_eq, Hc.
  rewrite <- (value_zero S (mkFloat (sig f) (exp f) Zero zs')) by reflexivity.
  apply cr_exact; [assumption| |right; reflexivity|reflexivity].
  split; [exact W1|]. split; [exact W2|exact I].
Qed.

(** a zero result arises only from tiny values *)
Lemma cr_result_zero : forall {pol} S m x zs st f, sem_ok S -> delivers pol S m x zs (st, f) ->
  (bpow r2 (MIN_EXP S - (PRECISION S - 1)) <= Rabs x)%R -> category f <> Zero.
Proof.
  intros pol S m x zs st f HS [H1 [H2 [H3 H4]]] Hx Hc.
  assert (bpow r2 (MIN_EXP S - (PRECISION S - 1)) <= Rabs (rounded S m x))%R as Hr.
  { pose proof (fexp_valid S HS). pose proof (valid_rnd_of m).
    apply abs_round_ge_generic; [assumption|assumption| |assumption].
    destruct HS as [Hp _ _ _]. apply generic_format_FLT_bpow; [red; lia|lia]. }
  pose proof (bpow_gt_0 r2 (MIN_EXP S - (PRECISION S - 1))) as Hb.
  destruct (Rle_lt_dec (Rabs (rounded S m x)) (max_finite S)) as [Hm|Hm].
  - destruct (H3 Hm) as [_ [B _]]. rewrite value_zero in B by assumption. rewrite <- B, Rabs_R0 in Hr. lra.
  - specialize (H4 Hm). destruct (pol (sign f)).
    + destruct H4 as [_ H4]. rewrite Hc in H4. destruct (NONFINITE_BEHAVIOR S); discriminate.
    + destruct H4 as [_ [H4 _]]. congruence.
Qed.

(** ** The status of a lossy normalization *)
Lemma normalize_lossy : forall S f m l st r, normalize S f m l = Ret (st, r) -> category f = Normal ->
  l <> ExactlyZero -> Z.lor st INEXACT = st.
Proof.
  intros S f m l st r H Hc Hl. unfold normalize, is_finite_non_zero, is_finite, is_nan, is_infinite, is_zero in H.
  rewrite Hc in H. cbn [category_eqb negb andb orb] in H.
  assert (Hov : forall m f st r, overflow_result_signed S m f = (st, r) -> Z.lor st INEXACT = st).
  { clear. intros m f st r H. unfold overflow_result_signed, overflow_result in H. destruct m; inversion H; reflexivity. }
  assert (Ht : forall f o l st r, normalize_tail S f o m l = Ret (st, r) -> l <> ExactlyZero -> Z.lor st INEXACT = st).
  { clear - Hov. intros f o l st r H Hl. unfold normalize_tail in H.
    destruct (hits_nan_pattern S f); [inversion H; apply (Hov m f st r); assumption|].
    destruct (loss_eqb l ExactlyZero) eqn:El; [apply loss_eqb_exact in El; contradiction|].
    destruct (round_away_from_zero f m l 0) as [b| |]; [|discriminate|discriminate]. cbn [bind] in H.
    assert (Hfin : forall f2 o2, (if o2 =? PRECISION S then Ret (INEXACT, f2)
      else assertb (o2 <? PRECISION S)
             (Ret (Z.lor UNDERFLOW INEXACT, if o2 =? 0 then copy_sign (ZERO S) f2 else f2))) = Ret (st, r) -> Z.lor st INEXACT = st).
    { intros f2 o2 E. destruct (o2 =? PRECISION S); [inversion E; reflexivity|].
      destruct (o2 <? PRECISION S); cbn [assertb] in E; [inversion E; reflexivity|discriminate]. }
    destruct b; [|exact (Hfin _ _ H)].
    destruct (increment _) as [il ic]. destruct (ic =? 0); cbn [assertb] in H; [|discriminate].
    destruct (get il 0) as [s0| |]; [|discriminate|discriminate]. cbn [bind] in H.
    destruct (Sig.omsb _ =? PRECISION S + 1).
    - destruct (exp _ =? MAX_EXP S); [inversion H; reflexivity|].
      destruct (shift_right _ _ _) as [[[ll ee] lo]| |]; [|discriminate|discriminate]. cbn [bind] in H.
      destruct (get ll 0) as [s1| |]; [|discriminate|discriminate]. cbn [bind] in H. inversion H; reflexivity.
    - destruct (hits_nan_pattern S _); [inversion H; eapply Hov; eassumption|]. exact (Hfin _ _ H). }
  destruct (0 <? Sig.omsb [sig f]); [|exact (Ht _ _ _ _ _ H Hl)].
  destruct (MAX_EXP S <? _); [inversion H; eapply Hov; eassumption|].
  match type of H with (if ?b then _ else _) = _ => destruct b end.
  - destruct (loss_eqb l ExactlyZero) eqn:El; [apply loss_eqb_exact in El; contradiction|]. discriminate.
  - match type of H with (if ?b then _ else _) = _ => destruct b end; [|exact (Ht _ _ _ _ _ H Hl)].
    destruct (chk32 _) as [ec| |]; [|discriminate|discriminate]. cbn [bind] in H.
    destruct (shift_right _ _ _) as [[[ll ee] lo]| |]; [|discriminate|discriminate]. cbn [bind] in H.
    destruct (get ll 0) as [s1| |]; [|discriminate|discriminate]. cbn [bind] in H.
    apply (Ht _ _ _ _ _ H). destruct lo, l; cbn; congruence.
Qed.

(** ** Addition *)
Definition zero_sum_sign (x y : Float) (m : Round) : bool :=
  match category x, category y with
  | Zero, Zero => if Bool.eqb (sign x) (sign y) then sign x else round_eqb m TowardNegative
  | _, _ => round_eqb m TowardNegative
  end.

(** digits are lost only from a full significand *)
Lemma sum_full : forall P A B ea eb sa sb, 0 < P -> 0 < A < 2 * P -> 0 < B < 2 * P ->
  (ea < eb -> P <= B) -> (eb < ea -> P <= A) ->
  let m := Z.min ea eb in
  let t := sgn sa * A * 2 ^ (ea - m) + sgn sb * B * 2 ^ (eb - m) in
  let re := if xorb sa sb && negb (ea =? eb) then Z.max ea eb - 1 else Z.max ea eb in
  let d := 2 ^ (re - m) in
  loss_of (Z.abs t mod d) d <> ExactlyZero -> P <= Z.abs t / d.
Proof.
  intros P A B ea eb sa sb HP HA HB HlB HlA m t re d Hl.
  assert (re <> m) as Hne.
  { intro E. apply Hl. unfold d; rewrite E, Z.sub_diag, Z.pow_0_r, Z.mod_1_r. reflexivity. }
  assert (d = 2 ^ (re - m)) as Ed by reflexivity. clear Hl. clearbody d. subst m t re.
  destruct (Z.eqb_spec ea eb) as [Ee|Ee]; cbn [negb] in *; [rewrite andb_false_r in *; lia|].
  rewrite andb_true_r in *.
  assert (Hk : forall k, 0 <= k -> 2 ^ (k + 1) = 2 * 2 ^ k) by (intros k Hk; rewrite Z.add_1_r; apply Z.pow_succ_r; assumption).
  destruct (Z_lt_le_dec ea eb) as [Hlt|Hge].
  - specialize (HlB Hlt). clear HlA. rewrite Z.min_l, Z.max_r in * by lia. rewrite Z.sub_diag, Z.pow_0_r, Z.mul_1_r.
    destruct (xorb sa sb) eqn:Ex.
    + assert (2 ^ (eb - ea) = 2 * d) as E2 by (rewrite Ed; rewrite <- Hk by lia; f_equal; lia).
      rewrite E2. clear E2.
      assert (exists c, d = 2 * c /\ 0 < c) as [c [Ec Hc]].
      { exists (2 ^ (eb - ea - 2)). split; [rewrite Ed; rewrite <- Hk by lia; f_equal; lia|apply pow2_gt0; lia]. }
      clear Ed Hk. subst d.
      apply Z.div_le_lower_bound; [lia|]. destruct sa, sb; cbn [sgn xorb] in *; try discriminate; nia.
    + assert (0 < d) as Hd by (rewrite Ed; apply pow2_gt0; lia). rewrite <- Ed. clear Ed Hk.
      apply Z.div_le_lower_bound; [lia|]. destruct sa, sb; cbn [sgn xorb] in *; try discriminate; nia.
  - specialize (HlA ltac:(lia)). clear HlB. rewrite Z.min_r, Z.max_l in * by lia. rewrite Z.sub_diag, Z.pow_0_r, Z.mul_1_r.
    destruct (xorb sa sb) eqn:Ex.
    + assert (2 ^ (ea - eb) = 2 * d) as E2 by (rewrite Ed; rewrite <- Hk by lia; f_equal; lia).
      rewrite E2. clear E2.
      assert (exists c, d = 2 * c /\ 0 < c) as [c [Ec Hc]].
      { exists (2 ^ (ea - eb - 2)). split; [rewrite Ed; rewrite <- Hk by lia; f_equal; lia|apply pow2_gt0; lia]. }
      clear Ed Hk. subst d.
      apply Z.div_le_lower_bound; [lia|]. destruct sa, sb; cbn [sgn xorb] in *; try discriminate; nia.
    + assert (0 < d) as Hd by (rewrite Ed; apply pow2_gt0; lia). rewrite <- Ed. clear Ed Hk.
      apply Z.div_le_lower_bound; [lia|]. destruct sa, sb; cbn [sgn xorb] in *; try discriminate; nia.
Qed.

Theorem add_r_crate : forall S x y m, sem_ok S -> wf S x -> wf S y -> finite x -> finite y ->
  exists res, add_r S x y m = Ret res /\
    crate_rounded S m (value S x + value S y) (zero_sum_sign x y m) res.
Proof.
  intros S x y m HS Hwx Hwy Hfx Hfy. unfold add_r, zero_sum_sign.
  destruct Hfx as [Cx|Cx]; destruct Hfy as [Cy|Cy]; rewrite Cx, Cy.
  - (* normal + normal *)
    pose proof (wf_normal_canonical S x Hwx Cx) as Kx. pose proof (wf_normal_canonical S y Hwy Cy) as Ky.
    pose proof (canonical_i32 _ _ _ HS Kx) as Ix. pose proof (canonical_i32 _ _ _ HS Ky) as Iy.
    destruct (p_pow S HS) as [P1 [P2 P3]]. pose proof HS as HS'. destruct HS' as [Hp Hmin Hmax Hnf].
    destruct Kx as [X1 [X2 [X3 _]]]. destruct Ky as [Y1 [Y2 [Y3 _]]].
    unfold is_negative.
    destruct (add_or_sub_spec [sig x] (exp x) (sign x) [sig y] (exp y) (sign y)) as [r [E [R1 [R2 R3]]]];
      [apply limb_1; unfold limb; lia|apply limb_1; unfold limb; lia|reflexivity|
       rewrite lval_single; change (nbits [sig x]) with 128; lia|
       rewrite lval_single; change (nbits [sig x]) with 128; lia|lia|lia| | |].
    { intros _ He. right. rewrite !lval_single. apply Z.le_lt_trans with (sig y); [|lia].
      apply Z.div_le_upper_bound; [apply pow2_gt0; lia|]. pose proof (pow2_gt0 (exp x - exp y - 1) ltac:(lia)). nia. }
    { intros _ He. right. rewrite !lval_single. apply Z.le_lt_trans with (sig x); [|lia].
      apply Z.div_le_upper_bound; [apply pow2_gt0; lia|]. pose proof (pow2_gt0 (exp y - exp x - 1) ltac:(lia)). nia. }
    rewrite !lval_single in E, R3.
    set (m0 := Z.min (exp x) (exp y)) in *.
    set (t := sgn (sign x) * sig x * 2 ^ (exp x - m0) + sgn (sign y) * sig y * 2 ^ (exp y - m0)) in *.
    set (re := if xorb (sign x) (sign y) && negb (exp x =? exp y) then Z.max (exp x) (exp y) - 1 else Z.max (exp x) (exp y)) in *.
    set (d := 2 ^ (re - m0)) in *.
    rewrite E. cbn [bind]. clear E.
    destruct (limbs1 r R2) as [r0 ->]. rewrite lval_single in R3. subst r0.
    change (get [Z.abs t / d] 0) with (Ret (Z.abs t / d)). cbn [bind].
    assert (m0 <= re) as Hre.
    { unfold re, m0. destruct (Z.eqb_spec (exp x) (exp y)); destruct (xorb (sign x) (sign y)); cbn [andb negb]; lia. }
    assert (re <= Z.max (exp x) (exp y)) as Hre2 by (unfold re; destruct (_ && _); lia).
    assert (0 < d) as Hd by (apply pow2_gt0; lia).
    set (v := (IZR (Z.abs t) * bpow r2 (m0 - (PRECISION S - 1)))%R).
    set (s := if t =? 0 then sign x else t <? 0).
    assert (Hval : (value S x + value S y = IZR t * bpow r2 (m0 - (PRECISION S - 1)))%R).
    { rewrite !value_normal by assumption. unfold t. rewrite plus_IZR, !mult_IZR, Rmult_plus_distr_r.
      assert (Hone : forall g s e, m0 <= e -> sgnr g (IZR s * bpow r2 (e - (PRECISION S - 1))) = (IZR (sgn g) * IZR s * IZR (2 ^ (e - m0)) * bpow r2 (m0 - (PRECISION S - 1)))%R).
      { intros g s0 e He. rewrite (Rmult_assoc _ (IZR (2 ^ _))). rewrite IZR_pow2_bpow by lia.
        replace (e - m0 + (m0 - (PRECISION S - 1))) with (e - (PRECISION S - 1)) by lia.
        destruct g; cbn [sgn sgnr]; ring. }
      rewrite <- !Hone by (unfold m0; lia). reflexivity. }
    assert (Hsv : sgnr s v = (value S x + value S y)%R).
    { rewrite Hval. unfold v, s. rewrite sgnr_mult. f_equal. destruct (Z.eqb_spec t 0) as [->|Ht]; [apply sgnr_0|].
      destruct (Z.ltb_spec t 0); cbn [sgnr]; [rewrite <- opp_IZR; f_equal; lia|f_equal; lia]. }
    assert (Hv0 : (0 <= v)%R) by (apply Rmult_le_pos; [apply IZR_le; lia|apply bpow_ge_0]).
    assert (Hb : between (Z.abs t / d) (re - (PRECISION S - 1)) v (loss_of (Z.abs t mod d) d)).
    { apply between_frac; [assumption|]. unfold v, d. rewrite Rmult_assoc. f_equal.
      rewrite Rmult_comm, IZR_pow2_bpow by lia. f_equal. lia. }
    set (loss := loss_of (Z.abs t mod d) d) in *.
    set (f := with_sign (set_sig_exp x (Z.abs t / d) re) s).
    assert (f = mkFloat (Z.abs t / d) re Normal s) as Ef.
    { unfold f. rewrite with_sign_eq. unfold set_sig_exp. cbn [sig exp category]. rewrite Cx. reflexivity. }
    clearbody f. subst f.
    (* if digits are lost the significand is full *)
    assert (Hfull : loss <> ExactlyZero -> 2 ^ (PRECISION S - 1) <= Z.abs t / d).
    { intro Hl. apply (sum_full (2 ^ (PRECISION S - 1)) (sig x) (sig y) (exp x) (exp y) (sign x) (sign y)); try lia. exact Hl. }
    assert (Hsmall : Z.abs t / d < 2 ^ 128).
    { assert (2 ^ (exp x - m0) <= 2 * d /\ 2 ^ (exp y - m0) <= 2 * d) as [D1 D2].
      { unfold d. rewrite <- Z.pow_succ_r by lia. split; apply Z.pow_le_mono_r; unfold re, m0; destruct (_ && _); lia. }
      apply Z.div_lt_upper_bound; [assumption|].
      assert (Z.abs t <= sig x * (2 * d) + sig y * (2 * d)).
      { unfold t. clear - D1 D2 X1 Y1 Hd.
        assert (0 <= sig x * 2 ^ (exp x - m0) <= sig x * (2 * d)) by (split; [apply Z.mul_nonneg_nonneg; [lia|apply Z.pow_nonneg; lia]|apply Z.mul_le_mono_nonneg_l; lia]).
        assert (0 <= sig y * 2 ^ (exp y - m0) <= sig y * (2 * d)) by (split; [apply Z.mul_nonneg_nonneg; [lia|apply Z.pow_nonneg; lia]|apply Z.mul_le_mono_nonneg_l; lia]).
        destruct (sign x), (sign y); cbn [sgn]; lia. }
      clearbody d. clear - H P3 X1 Y1 Hd. nia. }
    destruct (normalize_spec S (mkFloat (Z.abs t / d) re Normal s) m loss v HS eq_refl) as [[st f] [N1 N2]]; cbn [sig exp sign].
    { split; [apply Z.div_pos; lia|assumption]. }
    { lia. }
    { assumption. }
    { assumption. }
    { destruct (loss_eqb loss ExactlyZero) eqn:El; [left; apply loss_eqb_exact; assumption|right; right].
      apply Hfull. intro E. rewrite E in El. discriminate. }
    { intros Hz Hl. specialize (Hfull Hl). lia. }
    cbn [sign] in N2. rewrite N1. cbn [bind]. rewrite Hsv in N2.
    destruct (Z.eq_dec t 0) as [Ht|Ht].
    + assert (loss = ExactlyZero) as -> by (unfold loss; rewrite Ht; cbn [Z.abs]; rewrite Z.mod_0_l by lia; apply loss_of_zero).
      rewrite orb_true_r. cbn [assertb].
      assert (Hs0 : (value S x + value S y = 0)%R) by (rewrite Hval, Ht; ring).
      rewrite Hs0 in *.
      destruct (cr_zero_category S m s st f HS N2) as [Cf Cs].
      unfold is_zero. rewrite Cf, Cy. cbn [category_eqb andb orb negb].
      eexists. split; [reflexivity|]. apply cr_zero_with_sign with s; assumption.
    + assert (category f <> Zero) as Cf.
      { apply (cr_result_zero S m _ s st f HS N2). rewrite Hval, Rabs_mult, (Rabs_pos_eq (bpow _ _)) by apply bpow_ge_0.
        rewrite <- abs_IZR. apply Rle_trans with (IZR 1 * bpow r2 (m0 - (PRECISION S - 1)))%R.
        - rewrite Rmult_1_l. apply bpow_le. unfold m0. lia.
        - apply bpow_pos_mult_le. lia. }
      assert (is_zero f = false) as Hz by (unfold is_zero; destruct (category f); try reflexivity; contradiction).
      rewrite Hz. cbn [negb orb andb assertb].
      eexists. split; [reflexivity|].
      apply cr_change_zs with s; [|assumption]. rewrite Hval.
      apply Rmult_integral_contrapositive_currified; [apply not_0_IZR; assumption|apply Rgt_not_eq, bpow_gt_0].
  - (* normal + zero *)
    unfold is_zero. rewrite Cx. cbn [category_eqb andb]. eexists. split; [reflexivity|].
    rewrite (value_zero S y Cy), Rplus_0_r. apply cr_exact; [assumption|assumption|left; assumption|congruence].
  - unfold is_zero. rewrite Cy. cbn [category_eqb andb]. eexists. split; [reflexivity|].
    rewrite (value_zero S x Cx), Rplus_0_l. apply cr_exact; [assumption|assumption|left; assumption|congruence].
  - unfold is_zero. rewrite Cx, Cy. cbn [category_eqb andb orb negb]. unfold is_negative.
    rewrite (value_zero S y Cy), Rplus_0_r.
    destruct (Bool.eqb (sign x) (sign y)) eqn:Eb.
    + apply eqb_prop in Eb. rewrite Eb, xorb_nilpotent. eexists. split; [reflexivity|].
      apply cr_exact; [assumption|assumption|right; assumption|intros _; symmetry; congruence].
    + assert (xorb (sign x) (sign y) = true) as -> by (destruct (sign x), (sign y); cbn in *; congruence).
      eexists. split; [reflexivity|]. rewrite (value_zero S x Cx).
      apply cr_zero_with_sign with (sign x); [assumption|].
      rewrite <- (value_zero S x Cx). apply cr_exact; [assumption|assumption|right; assumption|reflexivity].
Qed.

(** ** Subtraction *)
Lemma value_neg : forall S x, value S (neg x) = (- value S x)%R.
Proof.
  intros S x. unfold value, neg, is_negative. cbn [category sign sig exp]. destruct (category x); try ring.
  destruct (sign x); cbn [signed negb]; rewrite ?opp_IZR; ring.
Qed.
Lemma wf_neg : forall S x, wf S x -> wf S (neg x).
Proof. intros S x H. exact H. Qed.
Lemma finite_neg : forall x, finite x -> finite (neg x).
Proof. intros x H. exact H. Qed.

Theorem sub_r_crate : forall S x y m, sem_ok S -> wf S x -> wf S y -> finite x -> finite y ->
  exists res, sub_r S x y m = Ret res /\
    crate_rounded S m (value S x - value S y) (zero_sum_sign x (neg y) m) res.
Proof.
  intros S x y m HS Hwx Hwy Hfx Hfy.
  replace (sub_r S x y m) with (add_r S x (neg y) m).
  - unfold Rminus in *. rewrite <- value_neg in *. apply add_r_crate; assumption || apply wf_neg || apply finite_neg; assumption.
  - unfold sub_r. destruct Hfx as [->| ->]; destruct Hfy as [->| ->]; reflexivity.
Qed.

(** ** Multiplication *)
Lemma value_negate_if : forall S x g, value S (negate_if x g) = sgnr g (value S x).
Proof. intros S x [|]; cbn [negate_if sgnr]; [apply value_neg|reflexivity]. Qed.

Lemma sgnr_sgnr : forall a b v, sgnr a (sgnr b v) = sgnr (xorb a b) v.
Proof. intros [] [] v; cbn; ring. Qed.
Lemma sgnr_mul : forall a b v w, (sgnr a v * sgnr b w = sgnr (xorb a b) (v * w))%R.
Proof. intros [] [] v w; cbn; ring. Qed.

Theorem mul_r_crate : forall S x y m, sem_ok S -> wf S x -> wf S y -> finite x -> finite y ->
  exists res, mul_r S x y m = Ret res /\
    crate_rounded S m (value S x * value S y) (xorb (sign x) (sign y)) res.
Proof.
  intros S x y m HS Hwx Hwy Hfx Hfy. unfold mul_r. rewrite negate_if_eq. cbn [category].
  unfold is_negative.
  assert (Hzero : (value S x * value S y = 0)%R -> exists res,
    Ret (OK, copy_sign (ZERO S) (mkFloat (sig x) (exp x) (category x) (xorb (sign x) (sign y)))) = Ret res /\
    crate_rounded S m (value S x * value S y) (xorb (sign x) (sign y)) res).
  { intros ->. eexists. split; [reflexivity|]. rewrite copy_sign_eq. cbn [sig exp category ZERO sign]. apply cr_exact_zero. assumption. }
  destruct Hfx as [Cx|Cx]; destruct Hfy as [Cy|Cy]; rewrite Cx, Cy in *;
    try (apply Hzero; rewrite ?(value_zero S x Cx), ?(value_zero S y Cy); ring).
  clear Hzero.
  pose proof (wf_normal_canonical S x Hwx Cx) as Kx. pose proof (wf_normal_canonical S y Hwy Cy) as Ky.
  pose proof (canonical_i32 _ _ _ HS Kx) as Ix. pose proof (canonical_i32 _ _ _ HS Ky) as Iy.
  destruct (p_pow S HS) as [P1 [P2 P3]]. pose proof HS as HS'. destruct HS' as [Hp Hmin Hmax Hnf].
  destruct Kx as [X1 _]. destruct Ky as [Y1 _].
  cbn [exp sig]. rewrite chk32_ret by lia. cbn [bind].
  set (w := sig x * sig y).
  assert (0 < w < 2 ^ (2 * PRECISION S)) as Hw.
  { unfold w. replace (2 * PRECISION S) with (PRECISION S + PRECISION S) by lia. rewrite Z.pow_add_r by lia. nia. }
  assert (bitlen w <= 2 * PRECISION S) as Hbw by (apply bitlen_le; lia).
  destruct (mul_spec [0; 0] (exp x + exp y) [sig x] [sig y] (PRECISION S)) as [d [D1 [D2 [D3 D4]]]];
    [apply limb_2; apply limb_0|apply limb_1; unfold limb; lia|apply limb_1; unfold limb; lia|reflexivity|lia|
     change (nbits [0; 0]) with 256; lia|lia|lia|rewrite !lval_single; fold w; lia|].
  rewrite !lval_single in D1, D4. fold w in D1, D4.
  set (sh := Z.max 0 (bitlen w - PRECISION S)) in *.
  rewrite D1. cbn [bind]. destruct (limbs2 d D3) as [d0 [d1 ->]].
  assert (0 <= w / 2 ^ sh < 2 ^ PRECISION S) as Hq.
  { split; [apply Z.div_pos; [lia|apply pow2_gt0; lia]|]. apply bitlen_le; [apply Z.div_pos; [lia|apply pow2_gt0; lia]|lia|].
    rewrite bitlen_shiftr by lia. lia. }
  assert (d0 = w / 2 ^ sh) as ->.
  { cbn [lval] in D4. inversion D2 as [|? ? L0 D2']; subst. inversion D2' as [|? ? L1 _]; subst. unfold limb in *. nia. }
  change (get [w / 2 ^ sh; d1] 0) with (Ret (w / 2 ^ sh)). cbn [bind].
  unfold set_sig_exp. cbn [category sign].
  set (loss := loss_of (w mod 2 ^ sh) (2 ^ sh)) in *. set (s := xorb (sign x) (sign y)) in *.
  set (v := (IZR w * bpow r2 (exp x + exp y - 2 * (PRECISION S - 1)))%R).
  assert (Hval : (value S x * value S y)%R = sgnr s v).
  { rewrite !value_normal by assumption. rewrite sgnr_mul. unfold v, s. f_equal.
    replace (exp x + exp y - 2 * (PRECISION S - 1)) with ((exp x - (PRECISION S - 1)) + (exp y - (PRECISION S - 1))) by lia.
    rewrite bpow_plus. unfold w. rewrite mult_IZR. ring. }
  rewrite Hval in *.
  destruct (normalize_spec S (mkFloat (w / 2 ^ sh) (exp x + exp y + 1 - PRECISION S + sh) Normal s) m loss v HS eq_refl) as [[st f] [N1 N2]]; cbn [sig exp sign].
  { unfold limb. lia. }
  { lia. }
  { apply Rmult_le_pos; [apply IZR_le; lia|apply bpow_ge_0]. }
  { apply between_frac; [apply pow2_gt0; lia|]. unfold v. rewrite Rmult_assoc. f_equal. rewrite Rmult_comm, IZR_pow2_bpow by lia. f_equal. lia. }
  { destruct (Z.eq_dec sh 0) as [E|E].
    - left. unfold loss. rewrite E. change (2 ^ 0) with 1. rewrite Z.mod_1_r. reflexivity.
    - right. right. pose proof (bitlen_shiftr w sh ltac:(lia) ltac:(lia)) as B.
      apply (omsb_of_bitlen (w / 2 ^ sh) (PRECISION S)); lia. }
  { intros E _. exfalso. destruct (Z.eq_dec sh 0) as [E2|E2].
    - rewrite E2 in E. change (2 ^ 0) with 1 in E. rewrite Z.div_1_r in E. lia.
    - pose proof (bitlen_shiftr w sh ltac:(lia) ltac:(lia)) as B. rewrite E in B. change (bitlen 0) with 0 in B. lia. }
  cbn [sign] in N2. rewrite N1. cbn [bind]. eexists. split; [reflexivity|].
  destruct (loss_eqb loss ExactlyZero) eqn:El; cbn [negb]; [assumption|].
  rewrite (normalize_lossy _ _ _ _ _ _ N1 eq_refl) by (intro E; rewrite E in El; discriminate). assumption.
Qed.

(** ** Division *)
Theorem div_r_crate : forall S x y m, sem_ok S -> wf S x -> wf S y -> finite x -> category y = Normal ->
  exists res, div_r S x y m = Ret res /\
    crate_rounded S m (value S x / value S y) (xorb (sign x) (sign y)) res.
Proof.
  intros S x y m HS Hwx Hwy Hfx Cy. unfold div_r. rewrite negate_if_eq. cbn [category].
  unfold is_negative.
  destruct Hfx as [Cx|Cx]; rewrite Cx, Cy in *.
  2:{ eexists. split; [reflexivity|].
      replace (value S x / value S y)%R with (value S (mkFloat (sig x) (exp x) Zero (xorb (sign x) (sign y)))).
      2:{ rewrite (value_zero S x Cx), value_zero by reflexivity. unfold Rdiv. ring. }
      apply cr_exact; [assumption| |right; reflexivity|reflexivity].
      destruct Hwx as [W1 [W2 _]]. split; [exact W1|]. split; [exact W2|exact I]. }
  pose proof (wf_normal_canonical S x Hwx Cx) as Kx. pose proof (wf_normal_canonical S y Hwy Cy) as Ky.
  pose proof (canonical_i32 _ _ _ HS Kx) as Ix. pose proof (canonical_i32 _ _ _ HS Ky) as Iy.
  destruct (p_pow S HS) as [P1 [P2 P3]]. pose proof HS as HS'. destruct HS' as [Hp Hmin Hmax Hnf].
  destruct Kx as [X1 _]. destruct Ky as [Y1 _].
  cbn [exp sig]. rewrite chk32_ret by lia. cbn [bind].
  destruct (div_spec [sig x] (exp x - exp y) [sig x] [sig y] (PRECISION S)) as [r [sh [Hsh [D1 [D2 [D3 [D4 D5]]]]]]];
    [apply limb_1; unfold limb; lia|apply limb_1; unfold limb; lia|apply limb_1; unfold limb; lia|reflexivity|reflexivity|
     change (nbits [sig x]) with 128; lia|lia|rewrite lval_single; lia|rewrite lval_single; lia|lia|lia|].
  rewrite !lval_single in D1, D4.
  rewrite D1. cbn [bind]. destruct (limbs1 r D3) as [d0 ->]. rewrite lval_single in *. subst d0.
  change (get [sig x * 2 ^ sh / sig y] 0) with (Ret (sig x * 2 ^ sh / sig y)). cbn [bind].
  unfold set_sig_exp. cbn [category sign].
  set (loss := loss_of ((sig x * 2 ^ sh) mod sig y) (sig y)) in *. set (s := xorb (sign x) (sign y)) in *.
  set (v := (IZR (sig x) / IZR (sig y) * bpow r2 (exp x - exp y))%R).
  assert (0 < IZR (sig y))%R as Hy0 by (apply IZR_lt; lia).
  assert (0 < IZR (sig x))%R as Hx0 by (apply IZR_lt; lia).
  assert (Hval : (value S x / value S y)%R = sgnr s v).
  { rewrite !value_normal by assumption. unfold v, s.
    replace (exp x - exp y) with ((exp x - (PRECISION S - 1)) + - (exp y - (PRECISION S - 1))) by lia.
    rewrite bpow_plus, bpow_opp. pose proof (bpow_gt_0 r2 (exp y - (PRECISION S - 1))) as B.
    destruct (sign x), (sign y); cbn [xorb sgnr]; field; lra. }
  rewrite Hval in *.
  (* the shift is bounded because the quotient is *)
  assert (sh <= 2 * PRECISION S) as Hsh2.
  { destruct (Z_le_gt_dec sh (2 * PRECISION S)); [assumption|]. exfalso.
    assert (2 ^ (2 * PRECISION S) <= 2 ^ sh) as H by (apply Z.pow_le_mono_r; lia).
    replace (2 * PRECISION S) with (PRECISION S + PRECISION S) in H by lia. rewrite Z.pow_add_r in H by lia.
    assert (sig x * 2 ^ sh / sig y >= 2 ^ PRECISION S); [|lia].
    apply Z.le_ge. apply Z.div_le_lower_bound; [lia|]. nia. }
  destruct (normalize_spec S (mkFloat (sig x * 2 ^ sh / sig y) (exp x - exp y + (PRECISION S - 1) - sh) Normal s) m loss v HS eq_refl) as [[st f] [N1 N2]]; cbn [sig exp sign].
  { unfold limb. lia. }
  { lia. }
  { apply Rmult_le_pos; [|apply bpow_ge_0]. apply Rlt_le, Rdiv_lt_0_compat; assumption. }
  { apply between_frac; [lia|]. unfold v. rewrite mult_IZR, (Rmult_assoc (IZR (sig x)) (IZR (2 ^ sh))), IZR_pow2_bpow by lia.
    replace (sh + (exp x - exp y + (PRECISION S - 1) - sh - (PRECISION S - 1))) with (exp x - exp y) by lia. field. lra. }
  { right. right. lia. }
  { intros E _. lia. }
  cbn [sign] in N2. rewrite N1. cbn [bind]. eexists. split; [reflexivity|].
  destruct (loss_eqb loss ExactlyZero) eqn:El; cbn [negb]; [assumption|].
  rewrite (normalize_lossy _ _ _ _ _ _ N1 eq_refl) by (intro E; rewrite E in El; discriminate). assumption.
Qed.

(** the statements in the words of the specification *)
(** ** The same, where the crate is right *)
Theorem add_r_finite : forall S x y m, sem_ok S -> wf S x -> wf S y -> finite x -> finite y ->
  overflow_side_ok S m (value S x + value S y) ->
  exists res, add_r S x y m = Ret res /\
    correctly_rounded S m (value S x + value S y) (zero_sum_sign x y m) res.
Proof.
  intros S x y m HS Hwx Hwy Hfx Hfy Hside. destruct (add_r_crate S x y m HS Hwx Hwy Hfx Hfy) as [res [E C]].
  exists res. split; [exact E|]. apply crate_rounded_correct; assumption.
Qed.
Theorem sub_r_finite : forall S x y m, sem_ok S -> wf S x -> wf S y -> finite x -> finite y ->
  overflow_side_ok S m (value S x - value S y) ->
  exists res, sub_r S x y m = Ret res /\
    correctly_rounded S m (value S x - value S y) (zero_sum_sign x (neg y) m) res.
Proof.
  intros S x y m HS Hwx Hwy Hfx Hfy Hside. destruct (sub_r_crate S x y m HS Hwx Hwy Hfx Hfy) as [res [E C]].
  exists res. split; [exact E|]. apply crate_rounded_correct; assumption.
Qed.
Theorem mul_r_finite : forall S x y m, sem_ok S -> wf S x -> wf S y -> finite x -> finite y ->
  overflow_side_ok S m (value S x * value S y) ->
  exists res, mul_r S x y m = Ret res /\
    correctly_rounded S m (value S x * value S y) (xorb (sign x) (sign y)) res.
Proof.
  intros S x y m HS Hwx Hwy Hfx Hfy Hside. destruct (mul_r_crate S x y m HS Hwx Hwy Hfx Hfy) as [res [E C]].
  exists res. split; [exact E|]. apply crate_rounded_correct; assumption.
Qed.
Theorem div_r_finite : forall S x y m, sem_ok S -> wf S x -> wf S y -> finite x -> category y = Normal ->
  overflow_side_ok S m (value S x / value S y) ->
  exists res, div_r S x y m = Ret res /\
    correctly_rounded S m (value S x / value S y) (xorb (sign x) (sign y)) res.
Proof.
  intros S x y m HS Hwx Hwy Hfx Hfy Hside. destruct (div_r_crate S x y m HS Hwx Hwy Hfx Hfy) as [res [E C]].
  exists res. split; [exact E|]. apply crate_rounded_correct; assumption.
Qed.

Lemma zero_sum_sign_eq : forall x y sy m, zero_sum_sign x (mkFloat (sig y) (exp y) (category y) sy) m = sum_zero_sign x y sy m.
Proof.
  intros x y sy m. unfold zero_sum_sign, sum_zero_sign. cbn [category sign].
  destruct (category x), (category y), (Bool.eqb (sign x) sy), m; reflexivity.
Qed.

Theorem add_r_correct : forall S x y m, sem_ok S -> wf S x -> wf S y -> finite x -> finite y ->
  overflow_side_ok S m (value S x + value S y) ->
  exists res, add_r S x y m = Ret res /\
    correctly_rounded S m (value S x + value S y) (sum_zero_sign x y (sign y) m) res.
Proof.
  intros S x y m HS Hx Hy Fx Fy Ho. rewrite <- zero_sum_sign_eq. destruct y as [a b c d]. apply add_r_finite; assumption.
Qed.

Theorem sub_r_correct : forall S x y m, sem_ok S -> wf S x -> wf S y -> finite x -> finite y ->
  overflow_side_ok S m (value S x - value S y) ->
  exists res, sub_r S x y m = Ret res /\
    correctly_rounded S m (value S x - value S y) (sum_zero_sign x y (negb (sign y)) m) res.
Proof.
  intros S x y m HS Hx Hy Fx Fy Ho. rewrite <- zero_sum_sign_eq.
  exact (sub_r_finite S x y m HS Hx Hy Fx Fy Ho).
Qed.
