(** * StrRefute.v -- texts that are not converted as one would expect *)
From Coq Require Import ZArith Reals List Bool Lia Lra ZifyBool String.
From Flocq Require Import Core Bracket Round.
From Verif Require Import Machine Sig SpecSig Ieee Spec Norm Arith Int Formats Samples Parse SpecStr StrHex StrAtt StrCell StrLoop StrDecimal StrTop.
Import ListNotations.
Local Open Scope Z_scope.
Ltac Zify.zify_post_hook ::= idtac.

(** ** The exact decimal expansion of a single-precision number

    13140415 * 2^-93, written with all its digits.  The 73 digits are more than
    the 128-bit working precision of the first attempt holds; both the digits and
    the power of five are then rounded to nearest, and src/ieee.rs:2665-2667 looks
    only at the distance of the product from a half-way point, not, as the directed
    modes need, from a representable number. *)
Definition long_digits : string := "1326842838000609515905197979541811637016479608064400963485240936279296875".
Definition long_text : list Z := bytes long_digits ++ 101 :: 45 :: bytes "93".
Definition long_value : R := (13140415 * bpow r2 (-93))%R.
Lemma bpow10_neg : forall k, 0 < k -> bpow r10 (- k) = (bpow r2 (- k) * / IZR (5 ^ k))%R.
Proof. intros k Hk. rewrite bpow10. destruct (Z.leb_spec 0 (- k)); [lia|]. rewrite Z.opp_involutive. reflexivity. Qed.
Lemma long_number : digits_value (bytes long_digits) = 13140415 * 5 ^ 93.
Proof. vm_compute. reflexivity. Qed.
Lemma cancel5 : forall n k, 0 < k -> (IZR (n * 5 ^ k) * bpow r10 (- k) = IZR n * bpow r2 (- k))%R.
Proof.
  intros n k Hk. rewrite bpow10_neg, mult_IZR by exact Hk. field. apply not_0_IZR. pose proof (Z.pow_pos_nonneg 5 k). lia.
Qed.
Lemma long_denotes : dec_text long_text false long_value.
Proof.
  pose proof (whole_text (bytes long_digits) (bytes "93") ltac:(discriminate) eq_refl) as H.
  rewrite long_number in H. assert (E : digits_value (bytes "93") = 93) by reflexivity. rewrite E in H.
  rewrite cancel5 in H by reflexivity. exact H.
Qed.
Lemma long_rounded : forall m, rounded SingleS m long_value = long_value.
Proof.
  intro m. apply rounded_format. unfold fexp. apply generic_format_FLT. exists (Defs.Float r2 13140415 (-93)).
  - reflexivity.
  - vm_compute. reflexivity.
  - vm_compute. discriminate.
Qed.
Lemma single_max_one : (1 <= max_finite SingleS)%R.
Proof.
  unfold max_finite. change (max_sig SingleS) with (2 ^ 24 - 1). change (bpow r2 _) with (bpow r2 104).
  pose proof (bpow_le r2 0 104 ltac:(lia)) as B. change (bpow r2 0) with 1%R in B. apply Rle_trans with (1 * 1)%R; [lra|].
  apply Rmult_le_compat; [lra|lra|apply IZR_le; vm_compute; discriminate|exact B].
Qed.
Lemma long_small : (Rabs long_value <= max_finite SingleS)%R.
Proof.
  apply Rle_trans with (2 := single_max_one). unfold long_value. rewrite Rabs_pos_eq by (apply Rmult_le_pos; [lra|apply bpow_ge_0]).
  apply Rle_trans with (bpow r2 24 * bpow r2 (-93))%R.
  - apply Rmult_le_compat_r; [apply bpow_ge_0|]. cbn. lra.
  - rewrite <- bpow_plus. change 1%R with (bpow r2 0). apply bpow_le. lia.
Qed.

Theorem decimal_directed_refuted : exists S s x st f, sem_ok S /\ dec_ok S /\ dec_text s false x /\
  from_str_r S s TowardZero = Ret (Ok (st, f)) /\ forall st' g, ~ correctly_rounded S TowardZero x g (st', f).
Proof.
  exists SingleS, long_text, long_value, 16, (mkFloat 13140414 (-70) Normal false).
  split; [exact single_ok|]. split; [constructor; vm_compute; (reflexivity || discriminate)|]. split; [exact long_denotes|].
  split; [vm_compute; reflexivity|].
  intros st' g [_ [_ [H _]]]. rewrite long_rounded in H. destruct (H long_small) as [_ [V _]].
  unfold value, long_value in V. cbn [category sign sig exp signed] in V. change (bpow r2 (-70 - _)) with (bpow r2 (-93)) in V.
  revert V. pose proof (bpow_gt_0 r2 (-93)) as B. revert B. generalize (bpow r2 (-93)). intros b B V. lra.
Qed.
(** the same text: the value is exact, but INEXACT is raised, in every mode *)
Theorem decimal_spurious_inexact_refuted : exists S s x f, sem_ok S /\ dec_ok S /\ dec_text s false x /\
  from_str_r S s NearestTiesToEven = Ret (Ok (INEXACT, f)) /\ finite f /\ value S f = x.
Proof.
  exists SingleS, long_text, long_value, (mkFloat 13140415 (-70) Normal false).
  split; [exact single_ok|]. split; [constructor; vm_compute; (reflexivity || discriminate)|]. split; [exact long_denotes|].
  split; [vm_compute; reflexivity|]. split; [left; reflexivity|]. unfold value, long_value. cbn [category sign sig exp signed].
  reflexivity.
Qed.

(** ** A number of 38 digits whose quotient by 5^54 is within 2^-127 of a double

    The quotient is rounded to the double, exactly; the remainder of the division
    is lost when [normalize] sees [ExactlyZero]. *)
Definition close_digits : string := "55449264799364195598462933631813976703".
Definition close_text : list Z := bytes close_digits ++ 101 :: 45 :: bytes "54".
Definition close_value : R := (55449264799364195598462933631813976703 * bpow r10 (-54))%R.
Lemma close_differs : (IZR 8997157607056391 * bpow r2 (-107) <> 55449264799364195598462933631813976703 * bpow r10 (-54))%R.
Proof.
  change (-54) with (- (54)). rewrite bpow10_neg by reflexivity. change (-107) with (- (53) + - (54)). rewrite (bpow_plus r2).
  rewrite (bpow_opp r2 53), <- (Int.IZR_pow2 53) by lia.
  assert (P1 : IZR (2 ^ 53) <> 0%R) by (apply not_0_IZR; discriminate).
  assert (P2 : IZR (5 ^ 54) <> 0%R) by (apply not_0_IZR; vm_compute; discriminate).
  assert (Y : (IZR 8997157607056391 * IZR (5 ^ 54) <> 55449264799364195598462933631813976703 * IZR (2 ^ 53))%R).
  { rewrite <- !mult_IZR. intro Y. apply eq_IZR in Y. vm_compute in Y. discriminate Y. }
  pose proof (bpow_gt_0 r2 (- (54))) as B. revert P1 P2 Y B.
  generalize (IZR (2 ^ 53)) (IZR (5 ^ 54)) (bpow r2 (- (54))) (IZR 8997157607056391) (IZR 55449264799364195598462933631813976703).
  intros a b c u v P1 P2 Y B E. apply Y. apply Rmult_eq_reg_r with (c * / a * / b)%R.
  - transitivity (u * (/ a * c))%R; [field; auto|]. rewrite E. field. auto.
  - repeat apply Rmult_integral_contrapositive_currified; try apply Rinv_neq_0_compat; try assumption. lra.
Qed.
Theorem decimal_missing_inexact_refuted : exists S s x f, sem_ok S /\ dec_ok S /\ dec_text s false x /\ short x /\
  from_str_r S s NearestTiesToEven = Ret (Ok (OK, f)) /\ finite f /\ value S f <> x.
Proof.
  exists DoubleS, close_text, close_value, (mkFloat 8997157607056391 (-55) Normal false).
  split; [exact double_ok|]. split; [constructor; vm_compute; (reflexivity || discriminate)|].
  split; [apply (whole_text (bytes close_digits) (bytes "54")); [discriminate|reflexivity]|].
  split; [exists 55449264799364195598462933631813976703, (-54); split; [lia|split; [lia|reflexivity]]|].
  split; [vm_compute; reflexivity|]. split; [left; reflexivity|].
  unfold value, close_value. cbn [category sign sig exp signed]. change (-55 - (PRECISION DoubleS - 1)) with (-107). apply close_differs.
Qed.

(** ** A format with a wide exponent range

    [MIN_EXP] and [MAX_EXP] are constants of the trait [Semantics] that a format
    may choose.  28738/8651 is more than log2 10, so that the shortcut for small
    numbers fires too early: 0.999999 * 10^-8651 is more than half the smallest
    number 2^-28737 of this format, but becomes zero. *)
Definition wideS : Semantics :=
  let b := ieee_semantics 20 16 IEEE754 in
  mkSem 20 16 4 IEEE754 (MAX_EXP b) (-28734) (NAN_SIGNIFICAND_BASE b) (NAN_PAYLOAD_MASK b) (QNAN_SIGNIFICAND b) false.
Lemma wide_ok : sem_ok wideS.
Proof. prove_ok. Qed.
Definition cutup (m e : Z) : Z * Z := let k := Z.max 0 (Z.log2 m - 96) in (- (- m / 2 ^ k), e + k).
Fixpoint high10 (p : positive) : Z * Z :=
  match p with
  | xH => (10, 0)
  | xO p => let '(m, e) := high10 p in cutup (m * m) (2 * e)
  | xI p => let '(m, e) := high10 p in cutup (10 * (m * m)) (2 * e)
  end.
Lemma cutup_high : forall m e n, 0 <= m -> 0 <= e -> n <= m * 2 ^ e -> let '(m', e') := cutup m e in 0 <= m' /\ 0 <= e' /\ n <= m' * 2 ^ e'.
Proof.
  intros m e n Hm He H. unfold cutup. set (k := Z.max 0 (Z.log2 m - 96)). assert (0 <= k) as Hk by lia. clearbody k.
  pose proof (Z.pow_pos_nonneg 2 k ltac:(lia) Hk) as Pk. pose proof (Z.pow_pos_nonneg 2 e ltac:(lia) He) as Pe.
  pose proof (Z.mul_div_le (- m) (2 ^ k) Pk) as G.
  split; [nia|]. split; [lia|]. rewrite Z.pow_add_r by lia.
  apply Z.le_trans with (1 := H). replace (- (- m / 2 ^ k) * (2 ^ e * 2 ^ k)) with (- (2 ^ k * (- m / 2 ^ k)) * 2 ^ e) by ring.
  apply Z.mul_le_mono_nonneg_r; lia.
Qed.
Lemma high10_spec : forall p, let '(m, e) := high10 p in 0 <= m /\ 0 <= e /\ 10 ^ Zpos p <= m * 2 ^ e.
Proof.
  induction p as [p IH|p IH|]; cbn [high10]; [| |cbn; lia];
    destruct (high10 p) as [m e]; destruct IH as [Hm [He H]];
    pose proof (Z.pow_pos_nonneg 2 e ltac:(lia) He) as Pe; pose proof (Z.pow_pos_nonneg 10 (Zpos p) ltac:(lia) ltac:(lia)) as Pt;
    assert (10 ^ (2 * Zpos p) <= m * m * 2 ^ (2 * e)) as Sq
      by (rewrite (Z.mul_comm 2 e), (Z.mul_comm 2 (Zpos p)), !Z.pow_mul_r, !Z.pow_2_r by lia;
          replace (m * m * (2 ^ e * 2 ^ e)) with ((m * 2 ^ e) * (m * 2 ^ e)) by ring; apply Z.mul_le_mono_nonneg; nia);
    apply cutup_high; try nia.
  rewrite (Pos2Z.inj_xI p), Z.pow_add_r, Z.pow_1_r by lia. nia.
Qed.
Lemma high10_lt : forall p a q, (snd (high10 p) <=? q) && (fst (high10 p) <? a * 2 ^ (q - snd (high10 p))) = true -> 10 ^ Zpos p < a * 2 ^ q.
Proof.
  intros p a q. pose proof (high10_spec p) as H. destruct (high10 p) as [m e]. destruct H as [Hm [He H]]. cbn [fst snd]. intro H1.
  apply andb_true_iff in H1. destruct H1 as [H2 H1].
  apply Z.ltb_lt in H1. apply Z.leb_le in H2. apply Z.le_lt_trans with (1 := H).
  replace q with (q - e + e) by lia. rewrite Z.pow_add_r, Z.mul_assoc by lia. apply Z.mul_lt_mono_pos_r; [apply Z.pow_pos_nonneg; lia|exact H1].
Qed.
Lemma bpow_above : forall a q n, 0 <= q -> 0 <= n -> 10 ^ n < a * 2 ^ q -> (bpow r2 (- q) < IZR a * bpow r10 (- n))%R.
Proof.
  intros a q n Hq Hn H. rewrite !bpow_opp. rewrite (bpow10_pos n) by lia. rewrite <- (Int.IZR_pow2 q) by lia.
  assert (A : (0 < IZR (2 ^ q))%R) by (apply IZR_lt; apply Z.pow_pos_nonneg; lia).
  assert (B : (0 < IZR (10 ^ n))%R) by (apply IZR_lt; apply Z.pow_pos_nonneg; lia).
  apply IZR_lt in H. rewrite mult_IZR in H.
  apply Rmult_lt_reg_r with (IZR (2 ^ q) * IZR (10 ^ n))%R; [apply Rmult_lt_0_compat; assumption|].
  replace (/ IZR (2 ^ q) * (IZR (2 ^ q) * IZR (10 ^ n)))%R with (IZR (10 ^ n)) by (field; lra).
  replace (IZR a * / IZR (10 ^ n) * (IZR (2 ^ q) * IZR (10 ^ n)))%R with (IZR a * IZR (2 ^ q))%R by (field; lra). exact H.
Qed.
Lemma bpow_below : forall a q n, 0 <= q -> 0 <= n -> a * 2 ^ q < 10 ^ n -> (IZR a * bpow r10 (- n) < bpow r2 (- q))%R.
Proof.
  intros a q n Hq Hn H. rewrite !bpow_opp. rewrite (bpow10_pos n) by lia. rewrite <- (Int.IZR_pow2 q) by lia.
  assert (A : (0 < IZR (2 ^ q))%R) by (apply IZR_lt; apply Z.pow_pos_nonneg; lia).
  assert (B : (0 < IZR (10 ^ n))%R) by (apply IZR_lt; apply Z.pow_pos_nonneg; lia).
  apply IZR_lt in H. rewrite mult_IZR in H.
  apply Rmult_lt_reg_r with (IZR (2 ^ q) * IZR (10 ^ n))%R; [apply Rmult_lt_0_compat; assumption|].
  replace (/ IZR (2 ^ q) * (IZR (2 ^ q) * IZR (10 ^ n)))%R with (IZR (10 ^ n)) by (field; lra).
  replace (IZR a * / IZR (10 ^ n) * (IZR (2 ^ q) * IZR (10 ^ n)))%R with (IZR a * IZR (2 ^ q))%R by (field; lra). exact H.
Qed.
Lemma tiny_above : (bpow r2 (-28738) < 999999 * bpow r10 (-8657))%R.
Proof. apply (bpow_above 999999 28738 8657); [discriminate|discriminate|]. apply high10_lt. vm_compute. reflexivity. Qed.
Lemma tiny_int : forall q n b, 0 <= n -> 2 ^ q <= b -> 0 < b -> b = 10 ^ n -> 999999 * 2 ^ q < 10 ^ (6 + n).
Proof. intros q n b Hn H B E. rewrite Z.pow_add_r by lia. rewrite <- E. change (10 ^ 6) with 1000000. revert H. generalize (2 ^ q). intros. lia. Qed.
Lemma tiny_below : (999999 * bpow r10 (-8657) < bpow r2 (-28737))%R.
Proof.
  apply (bpow_below 999999 28737 8657); [discriminate|discriminate|]. apply (tiny_int 28737 8651 (10 ^ 8651)); [discriminate|exact under_limit|apply Z.pow_pos_nonneg; [reflexivity|discriminate]|reflexivity].
Qed.
Definition tiny_text : list Z := bytes "999999" ++ 101 :: 45 :: bytes "8657".
Theorem decimal_underflow_refuted : exists S s x st f, sem_ok S /\ dec_text s false x /\
  from_str_r S s NearestTiesToEven = Ret (Ok (st, f)) /\ forall st' g, ~ correctly_rounded S NearestTiesToEven x g (st', f).
Proof.
  exists wideS, tiny_text, (999999 * bpow r10 (-8657))%R, 24, (mkFloat 0 (-28735) Zero false).
  split; [exact wide_ok|]. split; [apply (whole_text (bytes "999999") (bytes "8657")); [discriminate|reflexivity]|].
  split; [vm_compute; reflexivity|].
  pose proof tiny_above as L. pose proof tiny_below as U.
  assert (E : rounded wideS NearestTiesToEven (999999 * bpow r10 (-8657)) = bpow r2 (-28737)).
  { rewrite (cell_high wideS NearestTiesToEven 0 (-28734)); [|exact wide_ok| |reflexivity|].
    - unfold unit_of. cbn [Z.add]. rewrite Rmult_1_l. reflexivity.
    - split; [vm_compute; split; [discriminate|reflexivity]|vm_compute; discriminate|left; reflexivity].
    - unfold unit_of. change (-28734 - (PRECISION wideS - 1)) with (-28737). rewrite Rmult_0_l, Rplus_0_l.
      assert (bpow r2 (-28737) = 2 * bpow r2 (-28738))%R as W by (change (-28737) with (1 + -28738); rewrite bpow_plus; reflexivity).
      pose proof (bpow_gt_0 r2 (-28738)). lra. }
  intros st' g [_ [_ [H _]]]. rewrite E in H. destruct H as [_ [V _]].
  - rewrite Rabs_pos_eq by apply bpow_ge_0. unfold max_finite. change (PRECISION wideS) with 4. change (max_sig wideS) with 15.
    apply Rle_trans with (1 * bpow r2 (MAX_EXP wideS - (4 - 1)))%R; [rewrite Rmult_1_l; apply bpow_le; vm_compute; discriminate|].
    apply Rmult_le_compat_r; [apply bpow_ge_0|lra].
  - unfold value in V. cbn [category] in V. pose proof (bpow_gt_0 r2 (-28737)). lra.
Qed.
