(** * PairConst.v -- the constants of the pair format, the predicates that
    compare with them, bitwise equality, and the order by magnitude
    (src/ppc.rs:154-182, 389-425; src/lib.rs:551-565) *)
From Coq Require Import ZArith Reals List Bool Lia Lra.
From Flocq Require Import Core.
From Verif Require Import Machine Sig SpecSig Ieee Parse Fmt Ppc Spec Norm Arith Special Order Orderx Bits Formats Int Scale Next Convert Integral Rem Algebra Laws Nans Total StrCell SpecPair Pair PairOps PairBase PairMore.
Local Open Scope Z_scope.
Ltac Zify.zify_post_hook ::= idtac.

(** ** Bits *)
Theorem dd_bitwise_eq_bits : forall x y, pair_wf DoubleS x -> pair_wf DoubleS y ->
  dd_bitwise_eq x y = true <-> dd_to_bits DoubleS x = dd_to_bits DoubleS y.
Proof.
  intros x y [X0 X1] [Y0 Y1]. unfold dd_bitwise_eq. rewrite andb_true_iff.
  destruct (value_round_trip_crate _ _ _ double_in _ X0) as [a [_ [A [Ra _]]]].
  destruct (value_round_trip_crate _ _ _ double_in _ X1) as [b [_ [B [Rb _]]]].
  destruct (value_round_trip_crate _ _ _ double_in _ Y0) as [c [_ [C [Rc _]]]].
  destruct (value_round_trip_crate _ _ _ double_in _ Y1) as [d [_ [D [Rd _]]]].
  rewrite (bitwise_eq_crate _ _ _ double_in _ _ X0 Y0), (bitwise_eq_crate _ _ _ double_in _ _ X1 Y1).
  change (ieee_semantics 64 11 IEEE754) with DoubleS in *.
  rewrite (dd_to_bits_halves x a b A B Ra Rb), (dd_to_bits_halves y c d C D Rc Rd), A, B, C, D. split.
  - intros [E1 E2]. injection E1 as ->. injection E2 as ->. reflexivity.
  - intro E. injection E as E. split; f_equal; lia.
Qed.
Theorem dd_is_signaling_spec : forall F x, sem_ok F -> dd_is_signaling F x = signaling F (d0 x).
Proof. intros F x HF. unfold dd_is_signaling. apply is_signaling_spec. exact HF. Qed.

Section Const.
Variable F : Semantics.
Hypothesis HF : pair_ok F.
Let FO : sem_ok F := F_ok F HF.
Notation p := (PRECISION F).

(** ** Constants *)
Lemma zero_special : is_special F Zero false (ZERO F).
Proof. destruct (constants_spec F FO) as [_ [_ [_ [_ [_ [_ [A [B [C _]]]]]]]]]. exact (conj A (conj B C)). Qed.
Lemma zero_low : forall a, wf F a -> finite a -> canonical_pair F (mkDF a (ZERO F)) /\ pair_value F (mkDF a (ZERO F)) = value F a.
Proof.
  intros a W Fa. destruct zero_special as [Z1 [Z2 Z3]].
  assert (E : pair_value F (mkDF a (ZERO F)) = value F a) by (unfold pair_value; cbn [d0 d1]; rewrite (value_zero F (ZERO F) Z2); ring).
  split; [|exact E]. split; [split; assumption|]. split; [split; [exact Fa|right; exact Z2]|]. rewrite E. cbn [d0]. symmetry. apply rounded_format, value_format; assumption.
Qed.

Theorem dd_zero_spec : proper_pair F (dd_ZERO F) /\ category (d0 (dd_ZERO F)) = Zero /\ sign (d0 (dd_ZERO F)) = false /\
  pair_value F (dd_ZERO F) = 0%R.
Proof.
  destruct zero_special as [Z1 [Z2 Z3]]. destruct (zero_low (ZERO F) Z1 (or_intror Z2)) as [C V]. unfold dd_ZERO. cbn [d0 d1].
  split; [|split; [exact Z2|split; [exact Z3|rewrite V; apply value_zero, Z2]]].
  split; [apply C|]. cbn [d0 d1]. rewrite Z2. exact C.
Qed.
Theorem dd_infinity_spec : proper_pair F (dd_INFINITY F) /\ pair_number F (dd_INFINITY F) = Some PosInf.
Proof.
  destruct zero_special as [Z1 [Z2 Z3]]. destruct (constants_spec F FO) as [_ [_ [_ [_ [_ [_ [_ [_ [_ [[I1 [I2 I3]] _]]]]]]]]]].
  unfold infinity_of in I2. rewrite (pok_ieee F HF) in I2. unfold dd_INFINITY, proper_pair, pair_wf, pair_number. cbn [d0 d1]. rewrite I2, I3. tauto.
Qed.
Theorem dd_nan_spec : forall pl, payload_ok pl ->
  (proper_pair F (dd_NAN F) /\ pair_nan F (dd_NAN F)) /\
  (proper_pair F (dd_qnan F pl) /\ pair_nan F (dd_qnan F pl) /\ sign (d0 (dd_qnan F pl)) = false /\
   forall n, 0 <= n < p - 2 -> Z.testbit (sig (d0 (dd_qnan F pl))) n = Z.testbit (payload_bits pl) n) /\
  (proper_pair F (dd_snan F pl) /\ dd_is_signaling F (dd_snan F pl) = true /\ sign (d0 (dd_snan F pl)) = false /\
   (payload_bits pl mod 2 ^ (p - 2) <> 0 -> sig (d0 (dd_snan F pl)) mod 2 ^ (p - 2) = payload_bits pl mod 2 ^ (p - 2))).
Proof.
  intros pl Hpl. destruct zero_special as [Z1 [Z2 Z3]].
  destruct (constants_spec F FO) as [_ [_ [_ [_ [_ [_ [_ [_ [_ [_ N]]]]]]]]]].
  rewrite (dd_is_signaling_spec F _ FO). unfold proper_pair, pair_wf, pair_nan, dd_NAN, dd_qnan, dd_snan. cbn [d0 d1].
  destruct (qnan_spec F pl FO Hpl) as [Q1 [Q2 Q3]]. destruct (snan_spec F pl FO Hpl) as [S1 [S2 [S3 S4]]].
  specialize (Q3 (pok_ieee F HF)). destruct (S4 (pok_ieee F HF)) as [S5 [S6 _]].
  pose proof N as [N1 [N2 N3]]. pose proof Q1 as [q1 [q2 q3]]. rewrite N2, q2, S2. tauto.
Qed.
Theorem dd_smallest_spec : canonical_pair F (dd_SMALLEST F) /\ sign (d0 (dd_SMALLEST F)) = false /\
  pair_value F (dd_SMALLEST F) = min_positive F.
Proof.
  destruct (constants_spec F FO) as [_ [_ [S1 [S2 _]]]]. destruct (zero_low (SMALLEST F) S1 (or_introl eq_refl)) as [C V].
  split; [exact C|]. split; [reflexivity|]. unfold dd_SMALLEST. rewrite V. exact S2.
Qed.

(** a power of two is exact, unless it leaves the range *)
Lemma scalbn_exact : forall x n, wf F x -> category x = Normal -> sign x = false -> representable F (value F x * bpow r2 n) ->
  exists f, scalbn F x n = Ret f /\ wf F f /\ category f = Normal /\ sign f = false /\ value F f = (value F x * bpow r2 n)%R.
Proof.
  intros x n W C G R. destruct (scalbn_half F HF x n NearestTiesToEven W (or_introl C)) as [st [f [E D]]].
  exists f. split; [exact E|]. pose proof (proj1 D) as Wf. pose proof D as [_ [Sg _]].
  destruct (delivers_representable _ _ _ _ _ _ _ FO D R) as [_ [Ff V]].
  pose proof (value_pos F x W C) as P. assert (0 < value F x)%R by (rewrite value_normal, G by exact C; exact P).
  assert (0 < value F x * bpow r2 n)%R by (apply Rmult_lt_0_compat; [assumption|apply bpow_gt_0]).
  split; [exact Wf|]. split; [destruct Ff as [Cf|Cf]; [exact Cf|rewrite (value_zero F f Cf) in V; lra]|].
  split; [|exact V]. destruct Sg as [_ [Sp _]]. apply Sp. assumption.
Qed.
Lemma format_product : forall G e, 0 <= G < 2 ^ p -> MIN_EXP F <= e <= MAX_EXP F ->
  representable F (IZR G * bpow r2 (e - (p - 1))).
Proof.
  intros G e HG He. pose proof (ok_prec F FO) as Hp. split.
  - unfold fexp. apply generic_format_FLT. exists (Defs.Float r2 G (e - (p - 1))); [reflexivity| |]; cbn [Fnum Fexp].
    + rewrite Z.abs_eq by lia. exact (proj2 HG).
    + lia.
  - rewrite Rabs_pos_eq by (apply Rmult_le_pos; [apply IZR_le; lia|apply bpow_ge_0]).
    unfold max_finite, max_sig. rewrite (pok_ieee F HF). apply Rmult_le_compat; [apply IZR_le; lia|apply bpow_ge_0|apply IZR_le; lia|apply bpow_le; lia].
Qed.
Theorem dd_smallest_normalized_spec : exists x, dd_smallest_normalized F = Ret x /\ canonical_pair F x /\ sign (d0 x) = false /\
  pair_value F x = bpow r2 (MIN_EXP F + p) /\ is_special F Zero false (d1 x).
Proof.
  pose proof (ok_prec F FO) as Hp. pose proof (pok_min F HF) as Hm. pose proof (pok_max F HF) as HM.
  destruct (constants_spec F FO) as [_ [_ [_ [_ [S1 [S2 _]]]]]].
  assert (V : (value F (smallest_normalized F) * bpow r2 p = bpow r2 (MIN_EXP F + p))%R) by (rewrite S2; unfold min_normal; rewrite <- bpow_plus; reflexivity).
  destruct (scalbn_exact (smallest_normalized F) p S1 eq_refl eq_refl) as [f [E [W [C [G Vf]]]]].
  { rewrite V. replace (bpow r2 (MIN_EXP F + p)) with (IZR (2 ^ (p - 1)) * bpow r2 (MIN_EXP F + p - (p - 1)))%R.
    - apply format_product; [split; [apply Z.pow_nonneg; lia|apply Z.pow_lt_mono_r; lia]|lia].
    - rewrite IZR_pow2_bpow by lia. f_equal. lia. }
  unfold dd_smallest_normalized. rewrite E. cbn [bind]. eexists. split; [reflexivity|].
  destruct (zero_low f W (or_introl C)) as [K Vp]. split; [exact K|]. split; [exact G|]. split; [rewrite Vp, Vf; exact V|exact zero_special].
Qed.

Theorem dd_largest_spec : exists x, dd_largest F = Ret x /\ canonical_pair F x /\
  sign (d0 x) = false /\ value F (d0 x) = max_finite F /\
  category (d1 x) = Normal /\ sign (d1 x) = false /\ value F (d1 x) = (IZR (2 ^ p - 2) * bpow r2 (MAX_EXP F - 2 * p))%R.
Proof.
  pose proof (ok_prec F FO) as Hp. pose proof (pok_min F HF) as Hm. pose proof (pok_max F HF) as HM. destruct (p_pow F FO) as [P1 [P2 P3]].
  destruct (constants_spec F FO) as [L1 [L2 _]].
  assert (CL : category (largest F) = Normal) by (rewrite largest_eq by exact FO; reflexivity).
  assert (GL : sign (largest F) = false) by (rewrite largest_eq by exact FO; reflexivity).
  assert (MF : max_finite F = (IZR (2 ^ p - 1) * bpow r2 (MAX_EXP F - (p - 1)))%R) by (unfold max_finite, max_sig; rewrite (pok_ieee F HF); reflexivity).
  assert (V : (value F (largest F) * bpow r2 (- (p + 1)) = IZR (2 ^ p - 1) * bpow r2 ((MAX_EXP F - (p + 1)) - (p - 1)))%R).
  { rewrite L2, MF, Rmult_assoc, <- bpow_plus. do 2 f_equal. lia. }
  assert (R1 : representable F (IZR (2 ^ p - 1) * bpow r2 ((MAX_EXP F - (p + 1)) - (p - 1)))) by (apply format_product; lia).
  assert (R2 : representable F (IZR (2 ^ p - 2) * bpow r2 ((MAX_EXP F - (p + 1)) - (p - 1)))) by (apply format_product; lia).
  destruct (scalbn_exact (largest F) (- (p + 1)) L1 CL GL) as [f [E [W [C [G Vf]]]]]; [rewrite V; exact R1|].
  rewrite V in Vf.
  destruct (next_down_spec F f (Fin (value F f)) FO W (ext_of_finite F f (or_introl C))) as [r [Er [[Wr [Gb _]] _]]].
  set (u := bpow r2 (MAX_EXP F - (p + 1) - (p - 1))) in *. assert (Up : (0 < u)%R) by apply bpow_gt_0.
  assert (Step : (IZR (2 ^ p - 1) * u = IZR (2 ^ p - 2) * u + u)%R) by (replace (2 ^ p - 1) with (2 ^ p - 2 + 1) by lia; rewrite plus_IZR; ring).
  assert (L : ext_lt (Fin (IZR (2 ^ p - 2) * u)) (Fin (value F f))) by (cbn; rewrite Vf; lra).
  destruct Gb as [Fr [Lr Max]]; [eexists; split; [exact R2|exact L]|].
  specialize (Max _ R2 L). cbn in Lr. rewrite Vf in Lr.
  assert (Vr : value F r = (IZR (2 ^ p - 2) * u)%R).
  { destruct (Rle_lt_or_eq_dec _ _ Max) as [Q|Q]; [|symmetry; exact Q]. exfalso.
    assert (K : canonical_normal F (2 ^ p - 2) (MAX_EXP F - (p + 1))).
    { split; [lia|]. split; [lia|]. split; [right; lia|]. rewrite (pok_ieee F HF). discriminate. }
    pose proof (gap_above F _ _ (value F r) FO K (value_format F r FO Wr Fr) Q) as B. fold u in B.
    replace (2 ^ p - 2 + 1) with (2 ^ p - 1) in B by lia. lra. }
  unfold dd_largest. rewrite E. cbn [bind]. rewrite Er. cbn [bind]. change (OK =? OK) with true. cbn [assertb].
  assert (Q2 : (0 < IZR (2 ^ p - 2))%R) by (apply IZR_lt; lia).
  assert (Pr : (0 < value F r)%R) by (rewrite Vr; apply Rmult_lt_0_compat; assumption).
  assert (Cr : category r = Normal) by (destruct Fr as [Cr|Cr]; [exact Cr|rewrite (value_zero F r Cr) in Pr; lra]).
  assert (Gr : sign r = false).
  { destruct (sign r) eqn:Q; [|reflexivity]. pose proof (value_pos F r Wr Cr) as P. rewrite value_normal, Q in Pr by exact Cr. cbn [sgnr] in Pr. lra. }
  eexists. split; [reflexivity|]. cbn [d0 d1].
  split; [|split; [exact GL|split; [exact L2|split; [exact Cr|split; [exact Gr|rewrite Vr; unfold u; f_equal; f_equal; lia]]]]].
  split; [split; assumption|]. cbn [d0 d1]. split; [split; [left; exact CL|exact Fr]|]. unfold pair_value. cbn [d0 d1].
  rewrite L2. symmetry. rewrite MF. apply cell_low; [exact FO| |reflexivity| |].
  - constructor; lia.
  - apply Rplus_le_le_0_compat; [apply Rmult_le_pos; [apply IZR_le; lia|apply bpow_ge_0]|lra].
  - unfold unit_of. set (a := bpow r2 (MAX_EXP F - (p - 1))).
    assert (Ha : (a / 2 = IZR (2 ^ p) * u)%R).
    { unfold a, u. rewrite IZR_pow2_bpow by lia. unfold Rdiv. change (/ 2)%R with (bpow r2 (-1)). rewrite <- bpow_plus. f_equal. lia. }
    assert (0 < a)%R by apply bpow_gt_0. split; [lra|]. apply Rplus_lt_compat_l. rewrite Vr, Ha. apply Rmult_lt_compat_r; [exact Up|apply IZR_lt; lia].
Qed.

(** ** Comparing with them *)
Lemma same_pair : forall c x, pair_wf F c -> pair_wf F x -> sign (d0 c) = false ->
  category (d0 c) = Normal -> (category (d1 c) = Normal \/ is_special F Zero false (d1 c)) ->
  dd_bitwise_eq (dd_copy_sign c x) x = true <->
  category (d0 x) = Normal /\ Rabs (value F (d0 x)) = value F (d0 c) /\
  match category (d1 c) with
  | Normal => category (d1 x) = Normal /\ value F (d1 x) = if sign (d0 x) then (- value F (d1 c))%R else value F (d1 c)
  | _ => category (d1 x) = Zero /\ sign (d1 x) = false
  end.
Proof.
  intros c x [C0 C1] [X0 X1] G N0 N1. unfold dd_bitwise_eq. rewrite andb_true_iff.
  assert (D : dd_copy_sign c x = if sign (d0 x) then dd_neg c else c).
  { unfold dd_copy_sign, dd_is_negative, is_negative. rewrite G. destruct (sign (d0 x)); reflexivity. }
  rewrite D. clear D.
  assert (V0 : (0 < value F (d0 c))%R) by (rewrite value_normal, G by exact N0; exact (value_pos F _ C0 N0)).
  assert (S0 : category (d0 x) = Normal -> if sign (d0 x) then (value F (d0 x) < 0)%R else (0 < value F (d0 x))%R).
  { intro Cx. pose proof (value_pos F _ X0 Cx) as P. rewrite value_normal by exact Cx. destruct (sign (d0 x)); cbn [sgnr]; lra. }
  assert (S1 : category (d1 x) = Normal -> if sign (d1 x) then (value F (d1 x) < 0)%R else (0 < value F (d1 x))%R).
  { intro Cx. pose proof (value_pos F _ X1 Cx) as P. rewrite value_normal by exact Cx. destruct (sign (d1 x)); cbn [sgnr]; lra. }
  assert (SC : category (d1 c) = Normal -> if sign (d1 c) then (value F (d1 c) < 0)%R else (0 < value F (d1 c))%R).
  { intro Cx. pose proof (value_pos F _ C1 Cx) as P. rewrite value_normal by exact Cx. destruct (sign (d1 c)); cbn [sgnr]; lra. }
  assert (NW : forall a, wf F a -> wf F (neg a)) by (intros; apply wf_neg; assumption).
  destruct (sign (d0 x)) eqn:Gx.
  - unfold dd_neg. rewrite is_finite_non_zero_spec. destruct N1 as [N1|[_ [N1 N2]]]; rewrite N1; cbn [category_eqb d0 d1];
      rewrite !(bitwise_eq_spec F) by (exact FO || assumption || (apply NW; assumption)); rewrite ?category_neg, ?sign_neg, ?value_neg, ?N0, ?N1, ?G, ?Gx.
    + specialize (SC N1). split.
      * intros [[A1 [A2 [_ A4]]] [B1 [B2 [_ B4]]]]. specialize (A4 eq_refl). specialize (B4 eq_refl).
        split; [congruence|]. split; [rewrite <- A4, Rabs_Ropp; apply Rabs_pos_eq; lra|]. split; congruence.
      * intros [A1 [A2 [B1 B2]]]. specialize (S0 A1). specialize (S1 B1). rewrite Rabs_left in A2 by exact S0.
        split; (split; [congruence|]; split; [|split; [discriminate|intros _; lra]]); [reflexivity|].
        destruct (sign (d1 c)), (sign (d1 x)); cbn [negb]; try reflexivity; lra.
    + rewrite N2. split.
      * intros [[A1 [A2 [_ A4]]] [B1 [B2 _]]]. specialize (A4 eq_refl).
        split; [congruence|]. split; [rewrite <- A4, Rabs_Ropp; apply Rabs_pos_eq; lra|]. split; congruence.
      * intros [A1 [A2 [B1 B2]]]. specialize (S0 A1). rewrite Rabs_left in A2 by exact S0.
        split; (split; [congruence|]; split; [|split; [discriminate|]]); try reflexivity; try congruence; intros _; lra.
  - destruct N1 as [N1|[_ [N1 N2]]]; rewrite N1;
      rewrite !(bitwise_eq_spec F) by (exact FO || assumption); rewrite ?N0, ?N1, ?G, ?Gx.
    + specialize (SC N1). split.
      * intros [[A1 [A2 [_ A4]]] [B1 [B2 [_ B4]]]]. specialize (A4 eq_refl). specialize (B4 eq_refl).
        split; [congruence|]. split; [rewrite <- A4; apply Rabs_pos_eq; lra|]. split; congruence.
      * intros [A1 [A2 [B1 B2]]]. specialize (S0 A1). specialize (S1 B1). rewrite Rabs_pos_eq in A2 by lra.
        split; (split; [congruence|]; split; [|split; [discriminate|intros _; lra]]); [reflexivity|].
        destruct (sign (d1 c)), (sign (d1 x)); try reflexivity; lra.
    + rewrite N2. split.
      * intros [[A1 [A2 [_ A4]]] [B1 [B2 _]]]. specialize (A4 eq_refl).
        split; [congruence|]. split; [rewrite <- A4; apply Rabs_pos_eq; lra|]. split; congruence.
      * intros [A1 [A2 [B1 B2]]]. specialize (S0 A1). rewrite Rabs_pos_eq in A2 by lra.
        split; (split; [congruence|]; split; [|split; [discriminate|]]); try reflexivity; try congruence; intros _; lra.
Qed.
Lemma head_normal : forall a v, wf F a -> finite a -> value F a = v -> (0 < v)%R -> category a = Normal.
Proof. intros a v W [C|C] V P; [exact C|]. rewrite (value_zero F a C) in V. lra. Qed.

Theorem dd_is_smallest_spec : forall x, pair_wf F x ->
  dd_is_smallest F x = true <->
  category (d0 x) = Normal /\ Rabs (value F (d0 x)) = min_positive F /\ category (d1 x) = Zero /\ sign (d1 x) = false.
Proof.
  intros x Hx. unfold dd_is_smallest. destruct dd_smallest_spec as [[Cw _] [G V]]. destruct (constants_spec F FO) as [_ [_ [S1 [S2 _]]]].
  rewrite same_pair; [|exact Cw|exact Hx|exact G|reflexivity|right; exact zero_special].
  unfold dd_SMALLEST. cbn [d0 d1]. rewrite S2. reflexivity.
Qed.
Theorem dd_is_smallest_normalized_spec : forall x, pair_wf F x ->
  exists b, dd_is_smallest_normalized F x = Ret b /\
    (b = true <-> category (d0 x) = Normal /\ Rabs (value F (d0 x)) = bpow r2 (MIN_EXP F + p) /\ category (d1 x) = Zero /\ sign (d1 x) = false).
Proof.
  intros x Hx. unfold dd_is_smallest_normalized. destruct dd_smallest_normalized_spec as [c [-> [K [G [V Z]]]]]. cbn [bind].
  assert (V0 : value F (d0 c) = bpow r2 (MIN_EXP F + p)).
  { unfold pair_value in V. rewrite (value_zero F (d1 c) (proj1 (proj2 Z))) in V. lra. }
  eexists. split; [reflexivity|]. rewrite same_pair.
  - rewrite (proj1 (proj2 Z)), V0. reflexivity.
  - apply K.
  - exact Hx.
  - exact G.
  - apply (head_normal _ _ (proj1 (proj1 K)) (proj1 (proj1 (proj2 K))) V0). apply bpow_gt_0.
  - right. exact Z.
Qed.
Theorem dd_is_largest_spec : forall x, pair_wf F x ->
  exists b, dd_is_largest F x = Ret b /\
    (b = true <-> category (d0 x) = Normal /\ Rabs (value F (d0 x)) = max_finite F /\
       category (d1 x) = Normal /\
       value F (d1 x) = (IZR (if sign (d0 x) then - (2 ^ p - 2) else 2 ^ p - 2) * bpow r2 (MAX_EXP F - 2 * p))%R).
Proof.
  intros x Hx. unfold dd_is_largest. destruct dd_largest_spec as [c [-> [K [G [V0 [C1 [G1 V1]]]]]]]. cbn [bind].
  eexists. split; [reflexivity|]. rewrite same_pair.
  - rewrite C1, V0, V1. destruct (sign (d0 x)); [rewrite opp_IZR, Ropp_mult_distr_l_reverse|]; reflexivity.
  - apply K.
  - exact Hx.
  - exact G.
  - apply (head_normal _ _ (proj1 (proj1 K)) (proj1 (proj1 (proj2 K))) V0).
    pose proof (min_normal_le_max F FO). pose proof (bpow_gt_0 r2 (MIN_EXP F)). unfold min_normal in *. lra.
  - left. exact C1.
Qed.

(** ** The order by magnitude *)
Theorem dd_cmp_abs_spec : forall x y, canonical_pair F x -> canonical_pair F y ->
  category (d0 x) = Normal -> category (d0 y) = Normal ->
  (Rabs (value F (d0 x)) = Rabs (value F (d0 y)) ->
     category (d1 x) = Normal /\ category (d1 y) = Normal /\
     (Rabs (value F (d1 x)) = Rabs (value F (d1 y)) -> xorb (sign (d0 x)) (sign (d1 x)) = xorb (sign (d0 y)) (sign (d1 y)))) ->
  dd_cmp_abs_normal x y = Ret (Rcompare (Rabs (pair_value F x)) (Rabs (pair_value F y))).
Proof.
  intros x y Hx Hy Cx Cy HL. pose proof Hx as [[X0 X1] [[FX0 FX1] VX]]. pose proof Hy as [[Y0 Y1] [[FY0 FY1] VY]].
  unfold dd_cmp_abs_normal. rewrite (cmp_abs_value F _ _ FO X0 Y0 Cx Cy). cbn [bind].
  assert (RA : forall v, rounded F NearestTiesToEven (Rabs v) = Rabs (rounded F NearestTiesToEven v)).
  { intro v. destruct (Rle_or_lt 0 v) as [P|P].
    - rewrite !Rabs_pos_eq; [reflexivity| |exact P]. rewrite <- (rounded_0 F NearestTiesToEven). apply rounded_mono; assumption.
    - rewrite !Rabs_left1; [apply rounded_opp_NE| |lra]. rewrite <- (rounded_0 F NearestTiesToEven). apply rounded_mono; [exact FO|lra]. }
  destruct (Rcompare_spec (Rabs (value F (d0 x))) (Rabs (value F (d0 y)))) as [L|E|L].
  - rewrite Rcompare_Lt; [reflexivity|]. apply Rnot_le_lt. intro Q. apply (rounded_mono F NearestTiesToEven _ _ FO) in Q. rewrite !RA, <- VX, <- VY in Q. lra.
  - destruct (HL E) as [C1 [C2 HE]]. rewrite (cmp_abs_value F _ _ FO X1 Y1 C1 C2). cbn [bind]. unfold is_negative.
    assert (K : forall z, canonical_pair F z -> category (d0 z) = Normal -> category (d1 z) = Normal ->
      Rabs (pair_value F z) = (Rabs (value F (d0 z)) + (if xorb (sign (d0 z)) (sign (d1 z)) then - Rabs (value F (d1 z)) else Rabs (value F (d1 z))))%R).
    { intros z Hz D0 D1. pose proof (head_sign F HF z Hz) as Sg. destruct Hz as [[Z0 Z1] _].
      pose proof (value_pos F _ Z0 D0) as P0. pose proof (value_pos F _ Z1 D1) as P1. revert Sg. unfold pair_value.
      rewrite !value_normal by assumption. rewrite !sgnr_abs by lra.
      set (a := (IZR (sig (d0 z)) * bpow r2 (exp (d0 z) - (p - 1)))%R) in *. set (b := (IZR (sig (d1 z)) * bpow r2 (exp (d1 z) - (p - 1)))%R) in *.
      destruct (sign (d0 z)), (sign (d1 z)); cbn [sgnr xorb]; intro Sg; first [rewrite Rabs_left1 by exact Sg; ring|rewrite Rabs_pos_eq by exact Sg; ring]. }
    rewrite (K x Hx Cx C1), (K y Hy Cy C2), E, Rcompare_plus_l.
    assert (Q1 : (0 < Rabs (value F (d1 x)))%R) by (rewrite value_normal, sgnr_abs by (exact C1 || apply Rlt_le, value_pos; assumption); apply value_pos; assumption).
    assert (Q2 : (0 < Rabs (value F (d1 y)))%R) by (rewrite value_normal, sgnr_abs by (exact C2 || apply Rlt_le, value_pos; assumption); apply value_pos; assumption).
    set (a := Rabs (value F (d1 x))) in *. set (b := Rabs (value F (d1 y))) in *.
    destruct (xorb (sign (d0 x)) (sign (d1 x))), (xorb (sign (d0 y)) (sign (d1 y)));
      (destruct (Rcompare_spec a b) as [L|E1|L]; cbn [ord_eqb negb bool_cmp then_with ord_reverse]; try (specialize (HE E1); discriminate));
      f_equal; symmetry; first [apply Rcompare_Lt; lra|apply Rcompare_Gt; lra|apply Rcompare_Eq; lra].
  - rewrite Rcompare_Gt; [reflexivity|]. apply Rnot_le_lt. intro Q. apply (rounded_mono F NearestTiesToEven _ _ FO) in Q. rewrite !RA, <- VX, <- VY in Q. lra.
Qed.
End Const.
