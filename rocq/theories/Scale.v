(** * Scale.v -- ilogb, scalbn, frexp *)
From Coq Require Import ZArith Reals List Bool Lia Lra ZifyBool.
From Flocq Require Import Core.
From Flocq Require Import Calc.Bracket Calc.Round.
From Verif Require Import Machine Sig SpecSig Limbs SigProofs SigProofs2 SigProofs3 SigProofs4 SigProofs5 Ieee Spec Norm Arith Special Order Int.
Import ListNotations.
Local Open Scope Z_scope.

Ltac Zify.zify_post_hook ::= idtac.

(** the binade of a canonical number with a full significand *)
Lemma full_binade : forall S s e, sem_ok S -> 2 ^ (PRECISION S - 1) <= s < 2 ^ PRECISION S ->
  (bpow r2 e <= IZR s * bpow r2 (e - (PRECISION S - 1)) < bpow r2 (e + 1))%R.
Proof.
  intros S s e [Hp _ _ _] [H1 H2]. split.
  - replace (bpow r2 e) with (IZR (2 ^ (PRECISION S - 1)) * bpow r2 (e - (PRECISION S - 1)))%R by (rewrite IZR_pow2_bpow by lia; f_equal; lia).
    apply bpow_pos_mult_le. assumption.
  - replace (bpow r2 (e + 1)) with (IZR (2 ^ PRECISION S) * bpow r2 (e - (PRECISION S - 1)))%R by (rewrite IZR_pow2_bpow by lia; f_equal; lia).
    apply bpow_pos_mult_lt. assumption.
Qed.

Lemma normal_binade : forall S x, sem_ok S -> wf S x -> category x = Normal -> (min_normal S <= Rabs (value S x))%R ->
  (bpow r2 (exp x) <= Rabs (value S x) < bpow r2 (exp x + 1))%R.
Proof.
  intros S x HS Hx Cx Hm. pose proof (wf_normal_canonical S x Hx Cx) as K.
  rewrite value_normal, sgnr_abs in * by (try assumption; apply Rlt_le, value_pos; assumption).
  apply (canonical_full S _ _ HS K) in Hm. apply full_binade; [assumption|]. destruct K; lia.
Qed.

Lemma binade_unique : forall x a b, (bpow r2 a <= x < bpow r2 (a + 1))%R -> (bpow r2 b <= x < bpow r2 (b + 1))%R -> a = b.
Proof.
  intros x a b [A1 A2] [B1 B2].
  assert (a < b + 1) by (apply (lt_bpow r2); lra). assert (b < a + 1) by (apply (lt_bpow r2); lra). lia.
Qed.

Theorem ilogb_normal : forall S x, sem_ok S -> wf S x -> category x = Normal ->
  exists e, ilogb S x = Ret e /\ (bpow r2 e <= Rabs (value S x) < bpow r2 (e + 1))%R /\
    MIN_EXP S - (PRECISION S - 1) <= e <= MAX_EXP S.
Proof.
  intros S x HS Hx Cx. unfold ilogb, is_nan, is_zero, is_infinite. rewrite Cx. cbn [category_eqb].
  destruct (is_denormal_spec S x HS Hx) as [d [-> Hd]]. cbn [bind]. pose proof HS as [Hp Hmin Hmax _].
  pose proof (wf_normal_canonical S x Hx Cx) as [K1 [K2 [K3 _]]].
  destruct d; cbn [negb].
  - destruct (proj1 Hd eq_refl) as [_ Hlt]. rewrite chk32_ret by lia. cbn [bind].
    assert (exp x = MIN_EXP S) as He.
    { destruct K3 as [|K3]; [assumption|exfalso].
      pose proof (proj1 (canonical_full S _ _ HS (wf_normal_canonical S x Hx Cx)) K3) as Hge.
      rewrite value_normal, sgnr_abs in Hlt by (try assumption; apply Rlt_le, value_pos; assumption). lra. }
    set (v := (IZR (sig x) * bpow r2 (exp x))%R).
    assert (0 < v)%R as Hv by (apply Rmult_lt_0_compat; [apply IZR_lt; lia|apply bpow_gt_0]).
    assert (Rabs (value S x) = v * bpow r2 (- (PRECISION S - 1)))%R as Hval.
    { rewrite value_normal, sgnr_abs by (try assumption; apply Rlt_le, value_pos; assumption). unfold v.
      rewrite Rmult_assoc, <- bpow_plus. f_equal. }
    assert (v <= max_finite S)%R as Hmaxv.
    { apply Rle_trans with (bpow r2 (PRECISION S + MIN_EXP S)).
      - unfold v. rewrite He, <- IZR_pow2_bpow by lia. apply Rmult_le_compat_r; [apply bpow_ge_0|apply IZR_le; lia].
      - apply Rle_trans with (bpow r2 (MAX_EXP S)); [apply bpow_le; lia|].
        pose proof (finite_magnitudes S (mkFloat (2 ^ (PRECISION S - 1)) (MIN_EXP S) Normal false) HS (wf_smallest_normalized S false HS) eq_refl) as _.
        unfold max_finite. pose proof (max_sig_bounds S HS).
        replace (MAX_EXP S) with (PRECISION S - 1 + (MAX_EXP S - (PRECISION S - 1))) at 1 by lia.
        rewrite <- IZR_pow2_bpow by lia. apply bpow_pos_mult_le. lia. }
    assert (generic_format r2 (fexp S) (sgnr (sign x) v)) as Hfmt.
    { apply generic_format_FLT. exists (Defs.Float r2 (signed (sign x) (sig x)) (exp x)).
      - unfold F2R. cbn [Fnum Fexp]. rewrite signed_sgnr. apply sgnr_mult.
      - cbn [Fnum]. change (Zpower r2 (PRECISION S)) with (2 ^ PRECISION S). unfold signed. destruct (sign x); lia.
      - cbn [Fexp]. lia. }
    destruct (normalize_correct S (set_sig_exp x (sig x) (exp x + (PRECISION S - 1))) NearestTiesToEven ExactlyZero v) as [[st r] [E C]];
      unfold set_sig_exp in *; cbn [sig exp category sign] in *; try assumption; try lia; try lra.
    + exact (proj1 Hx).
    + rewrite between_exact. unfold v. f_equal. f_equal. lia.
    + left; reflexivity.
    + intros _ _ [H|H]; discriminate.
    + rewrite E. cbn [bind].
      assert (representable S (sgnr (sign x) v)) as Hrep by (split; [assumption|rewrite sgnr_abs by lra; assumption]).
      destruct (cr_representable S _ _ _ _ _ HS Hrep C) as [_ [Fr Vr]]. destruct C as [Wr _].
      assert (category r = Normal) as Cr.
      { destruct Fr as [|Cr]; [assumption|]. rewrite value_zero in Vr by assumption. destruct (sign x); cbn [sgnr] in Vr; lra. }
      assert (Rabs (value S r) = v) as Ar by (rewrite Vr; apply sgnr_abs; lra).
      assert (min_normal S <= v)%R as Hmn.
      { unfold v, min_normal. rewrite He. rewrite <- (Rmult_1_l (bpow r2 (MIN_EXP S))) at 1.
        apply (bpow_pos_mult_le 1 (sig x)). lia. }
      pose proof (normal_binade S r HS Wr Cr ltac:(lra)) as Hb. rewrite Ar in Hb.
      pose proof (wf_normal_canonical S r Wr Cr) as [_ [L2 _]].
      rewrite chk32_ret by lia. eexists. split; [reflexivity|]. split; [|lia].
      rewrite Hval. replace (exp r - (PRECISION S - 1) + 1) with (exp r + 1 + - (PRECISION S - 1)) by lia.
      replace (exp r - (PRECISION S - 1)) with (exp r + - (PRECISION S - 1)) by lia.
      rewrite !bpow_plus. pose proof (bpow_gt_0 r2 (- (PRECISION S - 1))). rewrite bpow_plus in Hb. split; [apply Rmult_le_compat_r; lra|].
      apply Rmult_lt_compat_r; lra.
  - eexists. split; [reflexivity|]. split; [|lia]. apply normal_binade; try assumption.
    destruct (Rlt_le_dec (Rabs (value S x)) (min_normal S)) as [H|]; [|assumption].
    assert (false = true) by (apply Hd; auto). discriminate.
Qed.

Theorem ilogb_special : forall S x,
  (category x = NaN -> ilogb S x = Ret (- 2 ^ 31)) /\
  (category x = Zero -> ilogb S x = Ret (- 2 ^ 31 + 1)) /\
  (category x = Infinity -> ilogb S x = Ret (2 ^ 31 - 1)).
Proof.
  intros S x. unfold ilogb, is_nan, is_zero, is_infinite. repeat split; intros ->; reflexivity.
Qed.

(** ** scalbn *)
Lemma cr_overflow_change : forall {pol pol'} S m x x' zs st f, sem_ok S -> pol (sign f) = pol' (sign f) ->
  (0 < x <= x' \/ x' <= x < 0)%R -> (max_finite S < Rabs (rounded S m x))%R ->
  delivers pol S m x zs (st, f) -> delivers pol' S m x' zs (st, f).
Proof.
  intros pol pol' S m x x' zs st f HS Hpol Hxx Hov [H1 [H2 [_ H4]]].
  assert (Rabs (rounded S m x) <= Rabs (rounded S m x'))%R as Hle.
  { pose proof (fexp_valid S HS). pose proof (valid_rnd_of m) as VR.
    destruct Hxx as [Hxx|Hxx].
    - assert (0 <= rounded S m x)%R by (unfold rounded; apply round_ge_generic; auto with typeclass_instances; [apply generic_format_0|lra]).
      assert (rounded S m x <= rounded S m x')%R by (unfold rounded; apply round_le; auto with typeclass_instances; lra).
      rewrite !Rabs_pos_eq; lra.
    - assert (rounded S m x <= 0)%R by (unfold rounded; apply round_le_generic; auto with typeclass_instances; [apply generic_format_0|lra]).
      assert (rounded S m x' <= rounded S m x)%R by (unfold rounded; apply round_le; auto with typeclass_instances; lra).
      rewrite !Rabs_left1; lra. }
  split; [assumption|]. split.
  - destruct H2 as [A [B C]]. repeat split; intro; [apply A; lra|apply B; lra|lra].
  - split; [intro; lra|]. intros _. rewrite <- Hpol. apply H4. assumption.
Qed.

Lemma rounded_tiny : forall S m s v, sem_ok S -> (0 < v < bpow r2 (MIN_EXP S - (PRECISION S - 1) - 1))%R ->
  rounded S m (sgnr s v) = sgnr s (if goes_away m s LessThanHalf false then bpow r2 (MIN_EXP S - (PRECISION S - 1)) else 0).
Proof.
  intros S m s v HS [Hv Hlt]. set (em := MIN_EXP S - (PRECISION S - 1)) in *.
  assert (bpow r2 em = 2 * bpow r2 (em - 1))%R as Hd.
  { replace em with (1 + (em - 1)) at 1 by lia. rewrite bpow_plus. reflexivity. }
  assert (between 0 em v LessThanHalf) as Hb.
  { unfold between, inbetween_float, F2R. cbn [Fnum Fexp loc_of].
    constructor; [cbn [Z.add]; lra|].
    apply Rcompare_Lt. cbn [Z.add]. lra. }
  assert (cexp r2 (fexp S) v = em) as Hc.
  { apply (cexp_between S 0 (MIN_EXP S) v LessThanHalf HS Hv); [pose proof (p_pow S HS); lia|lia|left; reflexivity|exact Hb]. }
  rewrite (rounded_between S m s v 0 em LessThanHalf Hv Hc Hb). cbn [Z.even negb].
  destruct (goes_away m s LessThanHalf false); cbn [cond_incr]; f_equal; cbn [Z.add]; ring.
Qed.

Lemma cr_tiny_change : forall {pol pol'} S m s v v' zs st f, sem_ok S ->
  (0 < v < bpow r2 (MIN_EXP S - (PRECISION S - 1) - 1))%R ->
  (0 < v' < bpow r2 (MIN_EXP S - (PRECISION S - 1) - 1))%R ->
  delivers pol S m (sgnr s v) zs (st, f) -> delivers pol' S m (sgnr s v') zs (st, f).
Proof.
  intros pol pol' S m s v v' zs st f HS Hv Hv' [H1 [H2 [H3 _]]].
  assert (rounded S m (sgnr s v) = rounded S m (sgnr s v')) as E by (rewrite !rounded_tiny by assumption; reflexivity).
  assert (Hne : forall u, (0 < u < bpow r2 (MIN_EXP S - (PRECISION S - 1) - 1))%R -> rounded S m (sgnr s u) <> sgnr s u).
  { intros u Hu. rewrite rounded_tiny by assumption. intro K. set (em := MIN_EXP S - (PRECISION S - 1)) in *.
    assert (bpow r2 em = 2 * bpow r2 (em - 1))%R as Hd by (replace em with (1 + (em - 1)) at 1 by lia; rewrite bpow_plus; reflexivity).
    destruct (goes_away m s LessThanHalf false), s; cbn [sgnr] in K; lra. }
  split; [assumption|]. split.
  - destruct H2 as [A [B C]]. destruct s; cbn [sgnr] in *; repeat split; intro; try lra; [apply A; lra|apply B; lra].
  - rewrite <- E. split.
    2:{ intro K. exfalso. rewrite rounded_tiny in K by assumption. revert K. apply Rle_not_lt.
        assert (bpow r2 (MIN_EXP S - (PRECISION S - 1)) <= max_finite S)%R as Hb.
        { pose proof (canonical_max S HS) as K. pose proof HS as [Hp Hmin Hmax _].
          apply Rle_trans with (1 * bpow r2 (MAX_EXP S - (PRECISION S - 1)))%R; [rewrite Rmult_1_l; apply bpow_le; lia|].
          unfold max_finite. apply (bpow_pos_mult_le 1). destruct K as [K _]. lia. }
        pose proof (max_finite_pos S HS). pose proof (bpow_gt_0 r2 (MIN_EXP S - (PRECISION S - 1))).
        rewrite sgnr_abs; destruct (goes_away m s LessThanHalf false); lra. }
    intro Hm. destruct (H3 Hm) as [A [B [C [D F]]]]. pose proof (Hne v Hv) as N1. pose proof (Hne v' Hv') as N2.
    split; [assumption|]. split; [assumption|]. split; [rewrite E; intro; contradiction|]. split; intros _; [apply D|apply F]; assumption.
Qed.

Theorem scalbn_r_crate : forall S x n m, sem_ok S -> wf S x -> category x = Normal ->
  exists st f, scalbn_r S x n m = Ret f /\ crate_rounded S m (value S x * bpow r2 n) (sign x) (st, f).
Proof.
  intros S x n m HS Hx Cx. unfold scalbn_r. pose proof HS as [Hp Hmin Hmax _].
  pose proof (wf_normal_canonical S x Hx Cx) as [K1 [K2 [K3 _]]].
  set (mc := MAX_EXP S - (MIN_EXP S - (PRECISION S - 1)) + 1).
  set (c := Z.min (Z.max n (- mc - 1)) mc).
  assert (Hc : (c = n) \/ (c = mc /\ mc < n) \/ (c = - mc - 1 /\ n < - mc - 1)) by lia.
  assert (- 2 ^ 22 <= c <= 2 ^ 22) as Hcr by lia. clearbody c.
  rewrite sat32_id by lia. unfold set_sig_exp.
  pose proof (value_pos S x Hx Cx) as Hpos. pose proof (value_normal S x Cx) as Hval.
  set (v := (IZR (sig x) * bpow r2 (exp x - (PRECISION S - 1)))%R) in *.
  assert (Hsc : forall k, (value S x * bpow r2 k = sgnr (sign x) (v * bpow r2 k))%R) by (intro k; rewrite Hval; destruct (sign x); cbn [sgnr]; ring).
  assert (Hvk : forall k, (0 < v * bpow r2 k)%R) by (intro k; apply Rmult_lt_0_compat; [assumption|apply bpow_gt_0]).
  assert (Habs : forall k, Rabs (value S x * bpow r2 k) = (v * bpow r2 k)%R) by (intro k; rewrite Hsc; apply sgnr_abs, Rlt_le, Hvk).
  assert (Hmono : forall a b, a <= b -> (v * bpow r2 a <= v * bpow r2 b)%R).
  { intros a b Hab. apply Rmult_le_compat_l; [lra|]. apply bpow_le. assumption. }
  assert (v < bpow r2 (MAX_EXP S + 1))%R as Hvtop.
  { pose proof (value_le_max S x HS Hx) as H. rewrite Hval, sgnr_abs in H by lra. pose proof (bpow_above_max S HS). lra. }
  assert (bpow r2 (MIN_EXP S - (PRECISION S - 1)) <= v)%R as Hvbot.
  { pose proof (finite_magnitudes S x HS Hx Cx) as [H _]. rewrite Hval, sgnr_abs in H by lra. exact H. }
  assert (Htiny : forall k, k <= - mc - 1 -> (v * bpow r2 k < bpow r2 (MIN_EXP S - (PRECISION S - 1) - 1))%R).
  { intros k Hk. apply Rlt_le_trans with (bpow r2 (MAX_EXP S + 1) * bpow r2 k)%R; [apply Rmult_lt_compat_r; [apply bpow_gt_0|assumption]|].
    rewrite <- bpow_plus. apply bpow_le. lia. }
  assert (Hhuge : forall k, mc <= k -> (bpow r2 (MAX_EXP S + 1) <= v * bpow r2 k)%R).
  { intros k Hk. apply Rle_trans with (bpow r2 (MIN_EXP S - (PRECISION S - 1)) * bpow r2 k)%R; [|apply Rmult_le_compat_r; [apply bpow_ge_0|assumption]].
    rewrite <- bpow_plus. apply bpow_le. lia. }
  destruct (normalize_spec S (mkFloat (sig x) (exp x + c) (category x) (sign x)) m ExactlyZero (v * bpow r2 c)) as [[st f] [E C]];
    cbn [sig exp category sign]; try assumption; try lia.
  + exact (proj1 Hx).
  + apply Rlt_le, Hvk.
  + rewrite between_exact. unfold v. rewrite Rmult_assoc, <- bpow_plus. f_equal. f_equal. lia.
  + left; reflexivity.
  + cbn [sign] in C. rewrite E. cbn [bind]. rewrite <- Hsc in C.
    assert (C' : crate_rounded S m (value S x * bpow r2 n) (sign x) (st, f)).
    { destruct Hc as [->|[[-> Hn]|[-> Hn]]]; [assumption| |].
      - eapply cr_overflow_change; [assumption| | | |exact C].
        + assert (Hws : forall k, mc <= k -> wrong_side S m (value S x * bpow r2 k) = false).
          { intros k Hk. unfold wrong_side. rewrite Habs, (Rlt_bool_false _ _ (Hhuge k Hk)), andb_false_r.
            destruct (NONFINITE_BEHAVIOR S), m; reflexivity. }
          unfold crate_to_infinity. rewrite !Hws by lia. reflexivity.
        + rewrite !Hsc. pose proof (Hvk mc). pose proof (Hmono mc n ltac:(lia)). destruct (sign x); cbn [sgnr]; lra.
        + apply rounded_above_max; [assumption|]. rewrite Habs. apply Hhuge. lia.
      - rewrite Hsc in C |- *. eapply cr_tiny_change; [assumption| | |exact C]; (split; [apply Hvk|apply Htiny; lia]). }
    exists st. unfold is_nan. destruct (category f) eqn:Cf; cbn [category_eqb]; try (eexists; split; [reflexivity|exact C']).
    rewrite result_from_nan_spec by assumption. cbn [bind]. eexists. split; [reflexivity|].
    assert (quieted S f = f) as ->; [|exact C'].
    destruct C' as [Wf [_ [D1 D2]]].
    destruct (Rlt_le_dec (max_finite S) (Rabs (rounded S m (value S x * bpow r2 n)))) as [L|L].
    * specialize (D2 L). unfold quieted. destruct (NONFINITE_BEHAVIOR S); [|destruct f; reflexivity].
      destruct (crate_to_infinity S m (value S x * bpow r2 n) (sign f)); [destruct D2 as [_ D2]; congruence|destruct D2 as [_ [D2 _]]; congruence].
    * destruct (D1 L) as [[Q|Q] _]; congruence.
Qed.

Theorem scalbn_r_normal : forall S x n m, sem_ok S -> wf S x -> category x = Normal ->
  overflow_side_ok S m (value S x * bpow r2 n) ->
  exists st f, scalbn_r S x n m = Ret f /\ correctly_rounded S m (value S x * bpow r2 n) (sign x) (st, f).
Proof.
  intros S x n m HS Hx Cx Hside. destruct (scalbn_r_crate S x n m HS Hx Cx) as [st [f [E C]]].
  exists st, f. split; [exact E|]. apply crate_rounded_correct; assumption.
Qed.

Theorem scalbn_r_special : forall S x n m, sem_ok S -> wf S x -> category x <> Normal ->
  exists f, scalbn_r S x n m = Ret f /\ wf S f /\ category f = category x /\ sign f = sign x /\
    (category x = NaN -> sig f = sig (quieted S x)).
Proof.
  intros S x n m HS Hx Cx. unfold scalbn_r.
  set (c := Z.min _ _). set (e := sat32 (exp x + c)).
  assert (i32 e) as He by (unfold e, sat32, i32, I32_MAX, I32_MIN; lia). clearbody c e.
  unfold set_sig_exp.
  assert (normalize S (mkFloat (sig x) e (category x) (sign x)) m ExactlyZero = Ret (OK, mkFloat (sig x) e (category x) (sign x))) as ->.
  { unfold normalize. rewrite is_finite_non_zero_spec. cbn [category]. destruct (category x); try reflexivity. contradiction. }
  cbn [bind]. assert (wf S (mkFloat (sig x) e (category x) (sign x))) as Hw.
  { destruct Hx as [A [_ B]]. split; [exact A|]. split; [exact He|]. cbn [category sig exp].
    destruct (category x); try exact B. contradiction. }
  unfold is_nan. cbn [category]. destruct (category x) eqn:Ec; cbn [category_eqb]; try contradiction.
  - eexists. split; [reflexivity|]. split; [exact Hw|]. cbn [category sign sig]. repeat split; try assumption. discriminate.
  - rewrite result_from_nan_spec by (assumption || reflexivity). cbn [bind]. eexists. split; [reflexivity|].
    split; [apply wf_quieted; [assumption|exact Hw|reflexivity]|]. cbn. repeat split.
  - eexists. split; [reflexivity|]. split; [exact Hw|]. cbn [category sign sig]. repeat split; try assumption. discriminate.
Qed.

(** ** frexp *)
Theorem frexp_r_normal : forall S x m, sem_ok S -> wf S x -> category x = Normal ->
  exists f e, frexp_r S x m = Ret (f, e) /\ wf S f /\ finite f /\
    value S x = (value S f * bpow r2 e)%R /\ (/ 2 <= Rabs (value S f) < 1)%R.
Proof.
  intros S x m HS Hx Cx. unfold frexp_r. destruct (ilogb_normal S x HS Hx Cx) as [e [-> [He Hr]]]. cbn [bind].
  pose proof HS as [Hp Hmin Hmax _]. unfold IEK_NAN, IEK_INF, IEK_ZERO, I32_MIN, I32_MAX.
  destruct (Z.eqb_spec e (- 2 ^ 31)); [lia|]. destruct (Z.eqb_spec e (2 ^ 31 - 1)); [lia|]. destruct (Z.eqb_spec e (- 2 ^ 31 + 1)); [lia|].
  rewrite chk32_ret by lia. cbn [bind]. rewrite chk32_ret by lia. cbn [bind].
  assert (Rabs (value S x * bpow r2 (- (e + 1))) = Rabs (value S x) * bpow r2 (- (e + 1)))%R as Ha.
  { rewrite Rabs_mult. f_equal. apply Rabs_pos_eq, bpow_ge_0. }
  assert (/ 2 <= Rabs (value S x * bpow r2 (- (e + 1))) < 1)%R as Hb.
  { rewrite Ha. pose proof (bpow_gt_0 r2 (- (e + 1))) as Hg. split.
    - apply Rle_trans with (bpow r2 e * bpow r2 (- (e + 1)))%R; [rewrite <- bpow_plus; replace (e + - (e + 1)) with (-1) by lia; cbn; lra|].
      apply Rmult_le_compat_r; lra.
    - apply Rlt_le_trans with (bpow r2 (e + 1) * bpow r2 (- (e + 1)))%R; [apply Rmult_lt_compat_r; lra|].
      rewrite <- bpow_plus, Z.add_opp_diag_r. cbn. lra. }
  assert (1 <= max_finite S)%R as H1max.
  { unfold max_finite. pose proof (max_sig_bounds S HS). apply Rle_trans with (IZR (2 ^ (PRECISION S - 1)) * bpow r2 (MAX_EXP S - (PRECISION S - 1)))%R.
    - rewrite IZR_pow2_bpow by lia. change 1%R with (bpow r2 0). apply bpow_le. lia.
    - apply bpow_pos_mult_le. lia. }
  pose proof (wf_normal_canonical S x Hx Cx) as [K1 [K2 [K3 _]]].
  assert (representable S (value S x * bpow r2 (- (e + 1)))) as Hrep.
  { split; [|lra]. apply generic_format_FLT.
    exists (Defs.Float r2 (signed (sign x) (sig x)) (exp x - (PRECISION S - 1) - (e + 1))).
    - unfold F2R. cbn [Fnum Fexp]. unfold value. rewrite Cx. rewrite Rmult_assoc, <- bpow_plus. reflexivity.
    - cbn [Fnum]. change (Zpower r2 (PRECISION S)) with (2 ^ PRECISION S). unfold signed. destruct (sign x); lia.
    - cbn [Fexp]. assert (e < exp x + 1); [|lia]. apply (lt_bpow r2). apply Rle_lt_trans with (1 := proj1 He).
      rewrite value_normal, sgnr_abs by (try assumption; apply Rlt_le, value_pos; assumption).
      apply Rlt_le_trans with (IZR (2 ^ PRECISION S) * bpow r2 (exp x - (PRECISION S - 1)))%R; [apply bpow_pos_mult_lt; lia|].
      rewrite IZR_pow2_bpow by lia. apply bpow_le. lia. }
  destruct (scalbn_r_normal S x (- (e + 1)) m HS Hx Cx) as [st [f [-> C]]].
  { apply side_small; [assumption|lra]. }
  cbn [bind]. destruct (cr_representable S _ _ _ _ _ HS Hrep C) as [_ [Ff Vf]]. destruct C as [Wf _].
  exists f, (e + 1). split; [reflexivity|]. split; [assumption|]. split; [assumption|]. rewrite Vf. split; [|assumption].
  rewrite Rmult_assoc, <- bpow_plus, Z.add_opp_diag_l. cbn. ring.
Qed.

Theorem frexp_r_special : forall S x m, sem_ok S -> wf S x -> category x <> Normal ->
  exists f e, frexp_r S x m = Ret (f, e) /\ wf S f /\ category f = category x /\ sign f = sign x /\
    match category x with
    | NaN => e = - 2 ^ 31 /\ sig f = sig (quieted S x)
    | Infinity => e = 2 ^ 31 - 1
    | _ => e = 0
    end.
Proof.
  intros S x m HS Hx Cx. unfold frexp_r. destruct (ilogb_special S x) as [I1 [I2 I3]].
  destruct (category x) eqn:Ec; try contradiction.
  - rewrite I3 by reflexivity. cbn [bind]. unfold IEK_NAN, IEK_INF, I32_MIN, I32_MAX. cbn [Z.eqb Z.opp].
    do 2 eexists. split; [reflexivity|]. split; [assumption|]. split; [assumption|]. split; reflexivity.
  - rewrite I1 by reflexivity. cbn [bind]. change (- 2 ^ 31 =? IEK_NAN) with true. cbv iota.
    rewrite result_from_nan_spec by assumption. cbn [bind]. do 2 eexists. split; [reflexivity|].
    split; [apply wf_quieted; assumption|]. repeat split. cbn. assumption.
  - rewrite I2 by reflexivity. cbn [bind]. change (- 2 ^ 31 + 1 =? IEK_NAN) with false. change (- 2 ^ 31 + 1 =? IEK_INF) with false.
    change (- 2 ^ 31 + 1 =? IEK_ZERO) with true. cbv iota. cbn [bind Z.opp]. rewrite chk32_ret by lia. cbn [bind].
    destruct (scalbn_r_special S x 0 m HS Hx ltac:(congruence)) as [f [-> [W [C1 [C2 _]]]]]. cbn [bind].
    do 2 eexists. split; [reflexivity|]. split; [assumption|]. split; [congruence|]. split; [assumption|reflexivity].
Qed.
