(** * StrDecimal.v -- the whole decimal conversion *)
From Coq Require Import ZArith Reals List Bool Lia Lra ZifyBool.
From Flocq Require Import Core Bracket Round.
From Verif Require Import Machine Sig SpecSig Limbs SigProofs SigProofs2 SigProofs3 SigProofs4 Ieee Spec Norm Arith Int Parse SpecStr StrHex StrScan StrNum StrAtt StrCell StrErr StrDec StrLoop.
Import ListNotations.
Local Open Scope Z_scope.
Ltac Zify.zify_post_hook ::= idtac.
Local Notation length := List.length.

(** ** Powers of ten against powers of two *)
Lemma pow_root : forall a b k, 0 < k -> 0 <= a -> 0 <= b -> a ^ k <= b ^ k -> a <= b.
Proof. intros a b k Hk Ha Hb H. destruct (Z_le_gt_dec a b); [assumption|]. pose proof (Z.pow_lt_mono_l b a k Hk ltac:(lia)). lia. Qed.
Lemma ratio_pow : forall a b q n, 0 < a -> 0 < b -> 2 ^ b <= 10 ^ a -> 0 <= q -> 0 <= n -> a * q <= b * n -> 2 ^ q <= 10 ^ n.
Proof.
  intros a b q n Ha Hb H Hq Hn E. apply pow_root with (k := a); [lia|apply Z.pow_nonneg; lia|apply Z.pow_nonneg; lia|].
  rewrite <- !Z.pow_mul_r by lia. apply Z.le_trans with (2 ^ (b * n)).
  - apply Z.pow_le_mono_r; lia.
  - rewrite Z.pow_mul_r, (Z.mul_comm n a), Z.pow_mul_r by lia. apply Z.pow_le_mono_l. split; [apply Z.pow_nonneg; lia|exact H].
Qed.
(** a lower bound of a power of ten, kept to 96 bits: [m * 2 ^ e <= 10 ^ p] *)
Definition cut (m e : Z) : Z * Z := let k := Z.max 0 (Z.log2 m - 96) in (m / 2 ^ k, e + k).
Fixpoint low10 (p : positive) : Z * Z :=
  match p with
  | xH => (10, 0)
  | xO p => let '(m, e) := low10 p in cut (m * m) (2 * e)
  | xI p => let '(m, e) := low10 p in cut (10 * (m * m)) (2 * e)
  end.
Lemma cut_low : forall m e n, 0 <= m -> 0 <= e -> m * 2 ^ e <= n -> let '(m', e') := cut m e in 0 <= m' /\ 0 <= e' /\ m' * 2 ^ e' <= n.
Proof.
  intros m e n Hm He H. unfold cut. set (k := Z.max 0 (Z.log2 m - 96)). assert (0 <= k) as Hk by lia. clearbody k.
  pose proof (Z.pow_pos_nonneg 2 k ltac:(lia) Hk) as Pk. pose proof (Z.pow_pos_nonneg 2 e ltac:(lia) He) as Pe.
  split; [apply Z.div_pos; lia|]. split; [lia|]. rewrite Z.pow_add_r by lia. pose proof (Z.mul_div_le m (2 ^ k) Pk).
  apply Z.le_trans with (2 := H). replace (m / 2 ^ k * (2 ^ e * 2 ^ k)) with (2 ^ k * (m / 2 ^ k) * 2 ^ e) by ring.
  apply Z.mul_le_mono_nonneg_r; lia.
Qed.
Lemma low10_spec : forall p, let '(m, e) := low10 p in 0 <= m /\ 0 <= e /\ m * 2 ^ e <= 10 ^ Zpos p.
Proof.
  induction p as [p IH|p IH|]; cbn [low10]; [| |cbn; lia];
    destruct (low10 p) as [m e]; destruct IH as [Hm [He H]];
    pose proof (Z.pow_pos_nonneg 2 e ltac:(lia) He) as Pe;
    assert (m * m * 2 ^ (2 * e) <= 10 ^ (2 * Zpos p)) as Sq
      by (rewrite (Z.mul_comm 2 e), (Z.mul_comm 2 (Zpos p)), !Z.pow_mul_r, !Z.pow_2_r by lia;
          replace (m * m * (2 ^ e * 2 ^ e)) with ((m * 2 ^ e) * (m * 2 ^ e)) by ring; apply Z.mul_le_mono_nonneg; nia);
    apply cut_low; try nia.
  rewrite (Pos2Z.inj_xI p), Z.pow_add_r, Z.pow_1_r by lia. nia.
Qed.
Lemma low10_le : forall p q, (0 <? fst (low10 p)) && (q <=? Z.log2 (fst (low10 p)) + snd (low10 p)) = true -> 2 ^ q <= 10 ^ Zpos p.
Proof.
  intros p q. pose proof (low10_spec p) as H. destruct (low10 p) as [m e]. destruct H as [Hm [He H]]. cbn [fst snd]. intro H1.
  apply andb_true_iff in H1. destruct H1 as [H1 H2].
  apply Z.ltb_lt in H1. apply Z.leb_le in H2. apply Z.le_trans with (2 ^ (Z.log2 m + e)); [apply Z.pow_le_mono_r; lia|].
  rewrite Z.pow_add_r by (pose proof (Z.log2_nonneg m); lia). apply Z.le_trans with (2 := H).
  apply Z.mul_le_mono_nonneg_r; [apply Z.pow_nonneg; lia|]. exact (proj1 (Z.log2_spec m H1)).
Qed.
Lemma over_ratio : 2 ^ 42039 <= 10 ^ 12655.
Proof. apply low10_le. vm_compute. reflexivity. Qed.
Lemma under_ratio : 2 ^ 13301 <= 10 ^ 4004.
Proof. apply low10_le. vm_compute. reflexivity. Qed.
Lemma under_limit : 2 ^ 28737 <= 10 ^ 8651.
Proof. apply low10_le. vm_compute. reflexivity. Qed.
Lemma over_pow : forall q n, 0 <= q -> 0 <= n -> 12655 * q <= 42039 * n -> 2 ^ q <= 10 ^ n.
Proof. intros q n Hq Hn H. exact (ratio_pow 12655 42039 q n ltac:(lia) ltac:(lia) over_ratio Hq Hn H). Qed.
(** 28738/8651 is a little more than log2 10, but no fraction with a smaller
    denominator lies between the two *)
Lemma under_pow : forall q n, 0 <= q < 28738 -> 0 <= n -> 8651 * q <= 28738 * n -> 2 ^ q <= 10 ^ n.
Proof.
  intros q n Hq Hn H. destruct (Z_le_gt_dec 8651 n) as [B|B].
  - apply Z.le_trans with (2 ^ 28737); [apply Z.pow_le_mono_r; lia|]. apply Z.le_trans with (1 := under_limit). apply Z.pow_le_mono_r; lia.
  - assert (4004 * q <= 13301 * n) as E by lia. clear H B. apply (ratio_pow 4004 13301 q n); [reflexivity|reflexivity|exact under_ratio|lia|lia|exact E].
Qed.
Lemma bpow10_pos : forall k, 0 <= k -> bpow r10 k = IZR (10 ^ k).
Proof. intros k Hk. symmetry. exact (IZR_Zpower r10 k Hk). Qed.
Lemma pow_bpow : forall q n, 0 <= q -> 0 <= n -> 2 ^ q <= 10 ^ n -> (bpow r2 q <= bpow r10 n)%R.
Proof. intros q n Hq Hn H. rewrite bpow10_pos by assumption. rewrite <- (IZR_pow2 q Hq). apply IZR_le. exact H. Qed.

(** ** The early exits *)
Lemma early_overflow : forall S m x N, sem_ok S -> 12655 * MAX_EXP S <= 42039 * (N - 1) -> (bpow r10 N <= x)%R ->
  correctly_rounded S m x false (overflow_result S m).
Proof.
  intros S m x N HS HN Hx. pose proof (ok_max S HS) as M. pose proof (ok_prec S HS) as P.
  assert (B : (bpow r2 (MAX_EXP S + 1) <= x)%R).
  { apply Rle_trans with (2 := Hx). replace N with (1 + (N - 1)) by lia. rewrite (bpow_plus r10).
    rewrite (Z.add_comm (MAX_EXP S) 1), (bpow_plus r2). apply Rmult_le_compat; [apply bpow_ge_0|apply bpow_ge_0|cbn; lra|].
    apply pow_bpow; [lia|lia|]. apply over_pow; lia. }
  pose proof (bpow_gt_0 r2 (MAX_EXP S + 1)) as B0.
  assert (X : correctly_rounded S m (sgnr (sign (ZERO S)) x) false (overflow_result_signed S m (ZERO S))).
  { apply cr_overflow; [assumption|lra| |destruct m; reflexivity].
    apply rounded_above_max; [assumption|]. cbn [ZERO sign sgnr]. rewrite Rabs_pos_eq by lra. exact B. }
  cbn [ZERO sign sgnr] in X. rewrite overflow_signed_eq in X by assumption. cbn [sign] in X.
  assert (sign (INFINITY S) = false) as Si by (unfold INFINITY; destruct (NONFINITE_BEHAVIOR S); reflexivity).
  unfold overflow_result. assert (mkFloat (sig (INFINITY S)) (exp (INFINITY S)) (category (INFINITY S)) false = INFINITY S) as <-.
  { rewrite <- Si. destruct (INFINITY S). reflexivity. }
  rewrite largest_eq by assumption. destruct m; exact X.
Qed.

Lemma tiny_cr : forall S m x, sem_ok S -> (0 < x < bpow r2 (MIN_EXP S - PRECISION S))%R ->
  correctly_rounded S m x false (Z.lor UNDERFLOW INEXACT, if round_eqb m TowardPositive then SMALLEST S else ZERO S).
Proof.
  intros S m x HS [H0 H1]. pose proof (ok_prec S HS) as P.
  pose proof (Z.pow_pos_nonneg 2 (PRECISION S - 1) ltac:(lia) ltac:(lia)) as Pp.
  assert (P2 : 2 ^ PRECISION S = 2 ^ (PRECISION S - 1) * 2) by (rewrite <- (Z.pow_1_r 2) at 3; rewrite <- Z.pow_add_r by lia; f_equal; lia).
  assert (C : cell S 0 (MIN_EXP S)) by (split; [lia|lia|left; reflexivity]).
  assert (U : unit_of S (MIN_EXP S) = (2 * bpow r2 (MIN_EXP S - PRECISION S))%R).
  { unfold unit_of. replace (MIN_EXP S - (PRECISION S - 1)) with (1 + (MIN_EXP S - PRECISION S)) by lia. rewrite bpow_plus. reflexivity. }
  assert (Hb : between 0 (MIN_EXP S - (PRECISION S - 1)) x LessThanHalf).
  { unfold between, inbetween_float. unfold unit_of in U. unfold F2R. cbn [Fnum Fexp]. rewrite U. change (0 + 1) with 1. constructor; [lra|]. apply Rcompare_Lt. lra. }
  pose proof (cell_cexp S 0 _ x _ HS C H0 Hb) as Ce.
  destruct (round_eqb m TowardPositive) eqn:E.
  - assert (m = TowardPositive) as -> by (destruct m; try discriminate E; reflexivity).
    pose proof (@cr_finite (to_infinity TowardPositive) S TowardPositive x false 1 (MIN_EXP S) false LessThanHalf 0 _ HS H0 Ce Hb) as X.
    unfold finite_status in X. cbn [loss_eqb] in X.
    assert (1 < 2 ^ (PRECISION S - 1)) as P1 by (apply Z.pow_gt_1; lia).
    destruct (1 <? 2 ^ (PRECISION S - 1)) eqn:Y; [|lia]. apply X.
    + split; [lia|]. pose proof (ok_min S HS). pose proof (ok_max S HS). split; [lia|]. split; [left; reflexivity|]. intros _ Z0. lia.
    + reflexivity.
  - apply (@cr_zero (to_infinity m) S m x false false LessThanHalf 0 _ HS H0 Ce Hb); [|discriminate].
    destruct m; try discriminate E; reflexivity.
Qed.

Lemma early_underflow : forall S m x N, sem_ok S -> dec_ok S -> 28738 * (N + 1) <= 8651 * (MIN_EXP S - PRECISION S) ->
  (0 < x < bpow r10 (N + 1))%R ->
  correctly_rounded S m x false (Z.lor UNDERFLOW INEXACT, if round_eqb m TowardPositive then SMALLEST S else ZERO S).
Proof.
  intros S m x N HS HD HN [H0 H1]. apply tiny_cr; [assumption|]. split; [assumption|]. apply Rlt_le_trans with (1 := H1).
  pose proof (ok_prec S HS). pose proof (ok_min S HS). pose proof (dec_min S HD).
  replace (N + 1) with (- (- (N + 1))) by lia. replace (MIN_EXP S - PRECISION S) with (- (PRECISION S - MIN_EXP S)) by lia.
  rewrite (bpow_opp r10 (- (N + 1))), (bpow_opp r2 (PRECISION S - MIN_EXP S)). apply Rinv_le; [apply bpow_gt_0|]. apply pow_bpow; [lia|lia|]. apply under_pow; lia.
Qed.

(** ** Short decimals *)
Lemma core_last : forall core m, is_core core -> digits 10 (nodot core) m -> ~ (10 | m).
Proof.
  intros core m [_ [c [r [-> [k [Hc Hk]]]]]] D.
  rewrite (nodot_snoc 10) in D by (exists k; split; [exact Hc|lia]).
  inversion D as [E|ds n c' k' D' Hc' Hk' E E'].
  - destruct (nodot r); discriminate.
  - apply app_inj_tail in E. destruct E as [_ ->]. rewrite (digit_unique _ _ _ Hc' Hc) in *. intros [j Hj]. lia.
Qed.
Lemma same_decimal : forall m E n k, 0 < m -> ~ (10 | m) -> (IZR m * bpow r10 E = IZR n * bpow r10 k)%R -> k <= E /\ n = m * 10 ^ (E - k).
Proof.
  intros m E n k Hm Hd H.
  assert (X : forall a b e f, e <= f -> (IZR a * bpow r10 e = IZR b * bpow r10 f)%R -> a = b * 10 ^ (f - e)).
  { intros a b e f Hef Y. apply eq_IZR. rewrite mult_IZR, <- bpow10_pos by lia. apply Rmult_eq_reg_r with (bpow r10 e); [|apply Rgt_not_eq, bpow_gt_0].
    rewrite Y, Rmult_assoc, <- bpow_plus. f_equal. f_equal. lia. }
  destruct (Z_lt_le_dec E k) as [L|L].
  - exfalso. apply Hd. rewrite (X m n E k ltac:(lia) H). exists (n * 10 ^ (k - E - 1)). rewrite <- Z.mul_assoc. f_equal.
    replace (k - E) with (k - E - 1 + 1) at 1 by lia. rewrite Z.pow_add_r, Z.pow_1_r by lia. reflexivity.
  - split; [exact L|]. apply X; [exact L|]. symmetry. exact H.
Qed.
Lemma short_bits : forall core m E, is_core core -> digits 10 (nodot core) m -> 0 < m -> short (IZR m * bpow r10 E) ->
  bitlen m <= 127 /\ bitlen (5 ^ Z.abs E) <= 127.
Proof.
  intros core m E C D Hm [n [k [Hn [Hk H]]]].
  destruct (same_decimal m E n k Hm (core_last core m C D) H) as [HE Hnm].
  assert (P : 0 < 10 ^ (E - k)) by (apply Z.pow_pos_nonneg; lia).
  assert (E - k < 38) as L.
  { destruct (Z_lt_le_dec (E - k) 38); [assumption|]. exfalso. pose proof (Z.pow_le_mono_r 10 38 (E - k) ltac:(lia) ltac:(lia)). nia. }
  split.
  - apply bitlen_le; [lia|lia|]. assert (10 ^ 38 < 2 ^ 127) by reflexivity. nia.
  - apply bitlen_le; [apply Z.pow_nonneg; lia|lia|]. apply Z.le_lt_trans with (5 ^ 54); [apply Z.pow_le_mono_r; lia|reflexivity].
Qed.

(** ** What the conversion of a number without sign delivers *)
Record dec_result (S : Semantics) (m : Round) (x : R) (res : Z * Float) : Prop := {
  dr_near : exists y, (Rabs (x - y) <= Rabs y * bpow r2 (-124))%R /\ correctly_rounded S m y false res;
  dr_nearest : nearest m = true -> exists st, correctly_rounded S m x false (st, snd res) /\ (fst res = st \/ fst res = OK \/ st = OK);
  dr_directed : short x -> nearest m = false -> correctly_rounded S m x false res;
  dr_exact : short x -> generic_format r2 (FLX_exp 127) x -> correctly_rounded S m x false res }.
Lemma cr_dec_result : forall S m x res, correctly_rounded S m x false res -> dec_result S m x res.
Proof.
  intros S m x [st f] H. constructor; try (intros; assumption).
  - exists x. split; [|exact H]. rewrite Rminus_eq_0, Rabs_R0. apply Rmult_le_pos; [apply Rabs_pos|apply bpow_ge_0].
  - intros _. exists st. split; [exact H|left; reflexivity].
Qed.
Lemma status_agree : forall S m v x st st' f, rounded S m x = rounded S m v ->
  correctly_rounded S m v false (st, f) -> correctly_rounded S m x false (st', f) -> st = st' \/ st = OK \/ st' = OK.
Proof.
  intros S m v x st st' f E [_ [_ [H3 H4]]] [_ [_ [K3 K4]]]. cbv zeta in *. rewrite E in K3, K4. set (r := rounded S m v) in *. clearbody r.
  destruct (Rle_lt_dec (Rabs r) (max_finite S)) as [L|L].
  - destruct (H3 L) as [_ [_ [A [B C]]]]. destruct (K3 L) as [_ [_ [A' [B' C']]]].
    destruct (Req_dec r v) as [X|X]; [right; left; auto|]. destruct (Req_dec r x) as [X'|X']; [right; right; auto|].
    left. destruct (Rle_lt_dec (min_normal S) (Rabs r)) as [M|M]; [rewrite (B X M), (B' X' M)|rewrite (C X M), (C' X' M)]; reflexivity.
  - specialize (H4 L). specialize (K4 L). left. revert H4 K4. destruct m; cbn [to_infinity]; try (intros [-> _] [-> _]; reflexivity);
      destruct (sign f); intros [A _] [B _]; congruence.
Qed.
Lemma delivered_dec_result : forall S m x (sharp : Prop) res, (0 < x)%R -> (short x -> sharp) -> delivered S m x sharp res -> dec_result S m x res.
Proof.
  intros S m x sharp [st f] Hx Hs [v [Hv [R [E [N [D X]]]]]]. constructor.
  - exists v. split; [|exact R]. rewrite (Rabs_pos_eq v) by lra. exact E.
  - intro Hm. destruct (cr_transfer S m v x st f Hv Hx (N Hm) R) as [st' R']. exists st'. split; [exact R'|].
    exact (status_agree S m v x st st' f (N Hm) R R').
  - intros H1 H2. exact (D (Hs H1) H2).
  - intros H1 H2. rewrite (X (Hs H1) H2). exact R.
Qed.

(** the exponent arithmetic of the code, with everything that may saturate *)
Lemma exponent_sat : forall d e delta k, d = Z.max (- I32_MAX) (Z.min I32_MAX e) -> - 2 ^ 26 <= delta <= 2 ^ 26 -> 1 <= k <= 2 ^ 26 ->
  let dexp := sat32 (d + delta) in let norm := sat32 (dexp + (k - 1)) in let N := e + delta + (k - 1) in
  (0 <= norm -> norm <= N) /\ (norm <= 0 -> N <= norm) /\ (- 2 ^ 30 <= norm <= 2 ^ 30 -> dexp = e + delta /\ norm = N).
Proof. intros d e delta k Hd H1 H2. cbv zeta. unfold sat32, I32_MAX, I32_MIN in *. lia. Qed.
Lemma over_test : forall a norm, 0 <= a <= 2 ^ 31 - 1 -> a <= sat32 (sat32 (norm - 1) * 42039) -> a <= 42039 * (norm - 1) /\ 0 <= norm - 1.
Proof. intros a norm Ha. unfold sat32, I32_MAX, I32_MIN. lia. Qed.
Lemma over_test_not : forall a norm, a <= 12655 * 2 ^ 17 -> sat32 (sat32 (norm - 1) * 42039) < a -> norm <= 2 ^ 17.
Proof. intros a norm Ha. unfold sat32, I32_MAX, I32_MIN. lia. Qed.
Lemma under_test : forall b norm, - 2 ^ 31 <= b < 0 -> sat32 (sat32 (norm + 1) * 28738) <= b -> 28738 * (norm + 1) <= b /\ norm + 1 <= 0.
Proof. intros b norm Hb. unfold sat32, I32_MAX, I32_MIN. lia. Qed.
Lemma under_test_not : forall b norm, 8651 * -28738 <= b -> b < sat32 (sat32 (norm + 1) * 28738) -> - 2 ^ 17 <= norm.
Proof. intros b norm Ha. unfold sat32, I32_MAX, I32_MIN. lia. Qed.
Lemma slice_mid : forall (z c r : list Z), slice_from (z ++ c ++ r) (len z) = Ret (c ++ r) /\ slice_to (c ++ r) (len c) = Ret c.
Proof.
  intros z c r. unfold slice_from, slice_to. pose proof (len_nonneg z). pose proof (len_nonneg c). pose proof (len_nonneg r). rewrite !len_app. split.
  - destruct ((0 <=? len z) && (len z <=? len z + (len c + len r))) eqn:E; [|lia]. unfold len. rewrite Nat2Z.id, skipn_app, skipn_all, Nat.sub_diag. reflexivity.
  - destruct ((0 <=? len c) && (len c <=? len c + len r)) eqn:E; [|lia]. unfold len. rewrite Nat2Z.id, firstn_app, firstn_all, Nat.sub_diag, firstn_O, app_nil_r. reflexivity.
Qed.
Lemma core_bits : forall m k, 0 < m < 10 ^ k -> 0 <= k -> bitlen m <= 4 * k.
Proof.
  intros m k Hm Hk. apply bitlen_le; [lia|lia|]. rewrite Z.pow_mul_r by lia. apply Z.lt_le_trans with (10 ^ k); [lia|].
  apply Z.pow_le_mono_l. change (2 ^ 4) with 16. lia.
Qed.

Theorem from_dec_spec : forall S s x m, sem_ok S -> dec_ok S -> dec_body s x -> len s < 2 ^ 25 ->
  exists res, from_decimal_string S s m = Ret (Ok res) /\ dec_result S m x res.
Proof.
  intros S s x m HS HD Hb HL. destruct (dec_scan s x Hb) as [st [E [A V]]]. unfold from_decimal_string. rewrite E. cbn [rbind bind].
  rewrite A. cbn [negb]. destruct (d_first st) as [first|].
  2:{ rewrite V. eexists. split; [reflexivity|]. apply cr_dec_result. apply cr_exact_zero. assumption. }
  destruct V as [z [core [rest [n [e [Es [C [Fm [D [Hf [Hl [Hld [Hdot [Hdig [He Hx]]]]]]]]]]]]]]].
  pose proof (core_pos core n C D) as Pn.
  assert (Hk : 1 <= len (nodot core)).
  { destruct (Z_le_gt_dec 1 (len (nodot core))); [assumption|]. pose proof (len_nonneg (nodot core)).
    replace (len (nodot core)) with 0 in Pn by lia. change (10 ^ (0 - 1)) with 0 in Pn. change (10 ^ 0) with 1 in Pn.
    exfalso. apply (core_last core n C D). exists 0. lia. }
  assert (N0 : 0 < n) by (pose proof (Z.pow_pos_nonneg 10 (len (nodot core) - 1) ltac:(lia) ltac:(lia)); lia).
  set (k := len (nodot core)) in *. set (dot := d_dot st) in *. set (last := d_last st) in *.
  assert (Lz : len z + len core <= len s) by (rewrite Es, !len_app; pose proof (len_nonneg rest); lia).
  pose proof (len_nonneg z) as Z0. pose proof (len_nonneg core) as Z1.
  assert (b2z ((first <? dot) && (dot <? last)) = 0 \/ b2z ((first <? dot) && (dot <? last)) = 1) as Hb2 by (destruct ((first <? dot) && (dot <? last)); [right|left]; reflexivity).
  assert (Hk2 : k <= 2 ^ 25) by lia.
  set (delta := if last <? dot then dot - last - 1 else dot - last) in *.
  assert (Hdelta : - 2 ^ 26 <= delta <= 2 ^ 26) by (subst delta; destruct (last <? dot) eqn:Y; lia).
  assert (Edec : (if last <? dot then sat32 (d_exp st + as_i32 (dot - last - 1)) else sat32 (d_exp st - as_i32 (last - dot))) = sat32 (d_exp st + delta)).
  { subst delta. destruct (last <? dot) eqn:Y; rewrite as_i32_id by lia; f_equal; lia. }
  cbv zeta. rewrite Edec. rewrite usub_ret by lia. cbn [bind]. rewrite usub_ret by lia. cbn [bind].
  rewrite Z.add_1_r, <- Z.add_1_r. rewrite Hdig. rewrite as_i32_id by lia. rewrite chk32_ret by lia. cbn [bind].
  destruct HD as [D1 D2 D3] eqn:HD'. pose proof (ok_prec S HS) as P1. pose proof (ok_min S HS) as P2. pose proof (ok_max S HS) as P3.
  rewrite (chk32_ret (12655 * MAX_EXP S)) by lia. cbn [bind]. rewrite (chk32_ret (8651 * (MIN_EXP S - PRECISION S))) by lia. cbn [bind].
  destruct (exponent_sat (d_exp st) e delta k He ltac:(lia) ltac:(lia)) as [X1 [X2 X3]].
  set (dexp := sat32 (d_exp st + delta)) in *. set (norm := sat32 (dexp + (k - 1))) in *.
  set (N := e + delta + (k - 1)) in *.
  assert (Hlow : (bpow r10 N <= x)%R).
  { rewrite Hx. replace N with ((k - 1) + (e + delta)) by (subst N; lia). rewrite (bpow_plus r10 (k - 1)). apply Rmult_le_compat_r; [apply bpow_ge_0|].
    rewrite bpow10_pos by lia. apply IZR_le. lia. }
  assert (Hhigh : (x < bpow r10 (N + 1))%R).
  { rewrite Hx. replace (N + 1) with (k + (e + delta)) by (subst N; lia). rewrite (bpow_plus r10 k). apply Rmult_lt_compat_r; [apply bpow_gt_0|].
    rewrite bpow10_pos by lia. apply IZR_lt. lia. }
  assert (x0 : (0 < x)%R) by (pose proof (bpow_gt_0 r10 N); lra).
  destruct (12655 * MAX_EXP S <=? sat32 (sat32 (norm - 1) * 42039)) eqn:T1.
  { eexists. split; [reflexivity|]. apply cr_dec_result. apply Z.leb_le in T1.
    destruct (over_test (12655 * MAX_EXP S) norm ltac:(lia) T1) as [T2 T3]. specialize (X1 ltac:(lia)).
    apply (early_overflow S m x N); [assumption|lia|assumption]. }
  destruct (sat32 (sat32 (norm + 1) * 28738) <=? 8651 * (MIN_EXP S - PRECISION S)) eqn:T2.
  { eexists. split; [reflexivity|]. apply cr_dec_result. apply Z.leb_le in T2.
    destruct (under_test (8651 * (MIN_EXP S - PRECISION S)) norm ltac:(lia) T2) as [T3 T4]. specialize (X2 ltac:(lia)).
    apply (early_underflow S m x N); [assumption|assumption|lia|lra]. }
  apply Z.leb_gt in T1, T2.
  pose proof (over_test_not (12655 * MAX_EXP S) norm ltac:(lia) T1) as U1.
  pose proof (under_test_not (8651 * (MIN_EXP S - PRECISION S)) norm ltac:(lia) T2) as U2.
  destruct (X3 ltac:(lia)) as [X4 X5].
  destruct (slice_mid z core rest) as [S1 S2]. rewrite Es, Hf. rewrite S1. cbn [bind].
  replace (last + 1 - len z) with (len core) by lia. rewrite S2. cbn [bind].
  destruct (dec_sig_spec (Datatypes.S (length core)) core [] Fm ltac:(lia) ltac:(constructor) ltac:(left; reflexivity)) as [n' [sg [D' [Eg [Lg [Tg Vg]]]]]].
  rewrite (digits_unique 10 _ _ _ ltac:(lia) D' D) in Vg. cbn [lval] in Vg. rewrite Z.mul_0_l, Z.add_0_l in Vg.
  rewrite Eg. cbn [bind].
  assert (Hdexp : Z.abs dexp <= 2 ^ 25 + 2 ^ 18) by lia.
  destruct (pow5_full_spec dexp ltac:(lia)) as [r [rs [p5 [ps [E5 [L1 [L2 [L3 [L4 [Tr Vr]]]]]]]]]]. rewrite E5. cbn [bind].
  pose proof (pow5_bits (Z.abs dexp) ltac:(lia)) as [_ B5]. pose proof (core_bits n k ltac:(lia) ltac:(lia)) as Bn.
  pose proof (tight_bits sg Lg Tg) as Ts. rewrite Vg in Ts. pose proof (tight_bits r L1 Tr) as Tr'. rewrite Vr in Tr'.
  destruct (dec_attempts_spec 57 S m 0 sg r dexp p5 rs ps n (5 ^ Z.abs dexp) x) as [res [Er Dr]]; try assumption; try reflexivity; try lia.
  { rewrite X4. exact Hx. }
  rewrite Er. cbn [bind]. exists res. split; [reflexivity|].
  apply delivered_dec_result with (2 := fun H => short_bits core n (e + delta) C D N0 (eq_ind x short H _ Hx)); [assumption|].
  rewrite <- X4. exact Dr.
Qed.
