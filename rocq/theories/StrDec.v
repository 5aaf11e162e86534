(** * StrDec.v -- one attempt at a decimal numeral: when it is accepted, and what it delivers *)
From Coq Require Import ZArith Reals List Bool Lia Lra ZifyBool.
From Flocq Require Import Core Bracket Round.
From Verif Require Import Machine Sig SpecSig Limbs SigProofs SigProofs2 SigProofs3 SigProofs4 Ieee Spec Norm Arith Parse StrHex StrNum StrAtt StrCell StrErr.
Import ListNotations.
Local Open Scope Z_scope.
Ltac Zify.zify_post_hook ::= idtac.
Local Notation length := List.length.

(** a vanishing significand below the least exponent *)
Lemma normalize_tiny : forall S e m l g, sem_ok S -> e < MIN_EXP S -> l <> ExactlyZero ->
  normalize S (mkFloat 0 e Normal g) m l = normalize S (mkFloat 0 (MIN_EXP S) Normal g) m l.
Proof.
  intros S e m l g HS He Hl. pose proof (ok_max S HS). pose proof (ok_min S HS). pose proof (ok_prec S HS).
  assert (K : forall e', e' <> MAX_EXP S -> hits_nan_pattern S (mkFloat 0 e' Normal g) = false).
  { intros e' N. destruct (hits_nan_pattern S (mkFloat 0 e' Normal g)) eqn:E; [|reflexivity]. exfalso.
    apply hits_nan_pattern_spec in E; [|assumption|cbn [exp]; intro; contradiction]. cbn [exp sig] in E. lia. }
  unfold normalize. cbn [is_finite_non_zero is_finite is_nan is_infinite is_zero category category_eqb negb andb orb sig].
  change (Sig.omsb [0]) with 0. cbn [Z.ltb Z.compare]. unfold normalize_tail. rewrite !K by lia.
  destruct (loss_eqb l ExactlyZero) eqn:El; [apply loss_eqb_exact in El; contradiction|].
  assert (round_away_from_zero (mkFloat 0 e Normal g) m l 0 = round_away_from_zero (mkFloat 0 (MIN_EXP S) Normal g) m l 0) as -> by reflexivity.
  destruct (round_away_from_zero (mkFloat 0 (MIN_EXP S) Normal g) m l 0) as [[|]| |]; try reflexivity.
  cbn [bind]. assert ((0 =? PRECISION S) = false) as -> by lia. reflexivity.
Qed.

(** the numbers behind an attempt: precision, exponent, the format's share of
    the bits and the number of bits to drop *)
Definition dropped (S : Semantics) (cp e : Z) : Z := cp - PRECISION S + Z.max 0 (MIN_EXP S - e).
Definition kept (S : Semantics) (cp e : Z) : Z := Z.max 0 (cp - dropped S cp e).
Definition vhat (cp V e : Z) : R := IZR V * bpow r2 (e - (cp - 1)).

Lemma cell_of : forall S cp V e, sem_ok S -> PRECISION S <= cp - 4 -> 2 ^ (cp - 1) <= V < 2 ^ cp ->
  cell S (V / 2 ^ dropped S cp e) (Z.max e (MIN_EXP S)) /\
  unit_of S (Z.max e (MIN_EXP S)) = (IZR (2 ^ dropped S cp e) * bpow r2 (e - (cp - 1)))%R /\ 4 <= dropped S cp e.
Proof.
  intros S cp V e HS Hp HV. pose proof (ok_prec S HS).
  assert (4 <= dropped S cp e) as D4 by (unfold dropped; lia). split; [|split; [|assumption]].
  - constructor; [|lia|].
    + split; [apply Z.div_pos; [|apply Z.pow_pos_nonneg; lia]|].
      * pose proof (Z.pow_pos_nonneg 2 (cp - 1) ltac:(lia) ltac:(lia)). lia.
      * apply Z.div_lt_upper_bound; [apply Z.pow_pos_nonneg; lia|]. rewrite <- Z.pow_add_r by lia.
        apply Z.lt_le_trans with (1 := proj2 HV). apply Z.pow_le_mono_r; unfold dropped; lia.
    + destruct (Z_lt_le_dec e (MIN_EXP S)); [left; lia|]. right. unfold dropped. replace (cp - PRECISION S + Z.max 0 (MIN_EXP S - e)) with (cp - PRECISION S) by lia.
      apply Z.div_le_lower_bound; [apply Z.pow_pos_nonneg; lia|]. rewrite <- Z.pow_add_r by lia.
      replace (cp - PRECISION S + (PRECISION S - 1)) with (cp - 1) by lia. lia.
  - unfold unit_of. rewrite IZR_pow2, <- bpow_plus by lia. f_equal. unfold dropped. lia.
Qed.
Lemma vhat_between : forall S cp V e, sem_ok S -> PRECISION S <= cp - 4 -> 2 ^ (cp - 1) <= V < 2 ^ cp ->
  between (V / 2 ^ dropped S cp e) (Z.max e (MIN_EXP S) - (PRECISION S - 1)) (vhat cp V e)
    (loss_of (V mod 2 ^ dropped S cp e) (2 ^ dropped S cp e)).
Proof.
  intros S cp V e HS Hp HV. destruct (cell_of S cp V e HS Hp HV) as [_ [U D4]]. unfold unit_of in U.
  apply between_frac; [apply Z.pow_pos_nonneg; lia|]. rewrite U. unfold vhat. ring.
Qed.
Lemma vhat_pos : forall cp V e, 1 <= cp -> 2 ^ (cp - 1) <= V -> (0 < vhat cp V e)%R.
Proof.
  intros cp V e Hcp HV. apply Rmult_lt_0_compat; [|apply bpow_gt_0]. apply IZR_lt.
  pose proof (Z.pow_pos_nonneg 2 (cp - 1) ltac:(lia) ltac:(lia)). lia.
Qed.

(** the end of an accepted attempt *)
Theorem finish_spec : forall S m sc cp e, sem_ok S -> PRECISION S <= cp - 4 -> cp <= 2 ^ 29 -> limbs sc -> cp <= nbits sc ->
  2 ^ (cp - 1) <= lval sc < 2 ^ cp -> - 2 ^ 30 <= e <= 2 ^ 30 ->
  exists res,
    (let! lsb := usub cp (kept S cp e) in
     let! l := extract [0] sc (kept S cp e) lsb in
     let! s0 := get l 0 in
     let! d := usub (PRECISION S) (kept S cp e) in
     let! e := chk32 (e + as_i32 d) in
     let! loss := through_truncation sc (dropped S cp (e - d)) in
     normalize S (mkFloat s0 e Normal false) m loss) = Ret res /\
    correctly_rounded S m (vhat cp (lval sc) e) false res.
Proof.
  intros S m sc cp e HS Hp Hcp Hl Hn HV He. destruct (cell_of S cp (lval sc) e HS Hp HV) as [C [U D4]].
  pose proof (ok_prec S HS) as Pp. pose proof (ok_min S HS) as Pm.
  assert (0 <= kept S cp e <= PRECISION S) as Hk by (unfold kept, dropped; lia).
  rewrite usub_ret by lia. cbn [bind].
  destruct (extract_spec [0] sc (kept S cp e) (cp - kept S cp e)) as [d [E1 [E2 [E3 E4]]]];
    [apply limb_1, limb_0|assumption|lia|lia| |lia|reflexivity|].
  { change (nlimbs [0]) with 1. unfold limbs_for_bits, LIMB_BITS. apply Z.lt_succ_r. apply Z.div_lt_upper_bound; lia. }
  rewrite E1. cbn [bind]. destruct (limbs1 d E3) as [s0 ->]. rewrite lval_single in E4. change (get [s0] 0) with (Ret s0). cbn [bind].
  rewrite usub_ret by lia. cbn [bind]. rewrite as_i32_id by lia. rewrite chk32_ret by lia. cbn [bind].
  replace (e + (PRECISION S - kept S cp e) - (PRECISION S - kept S cp e)) with e by lia.
  rewrite through_truncation_spec by (try assumption; lia). cbn [bind].
  set (V := lval sc) in *. set (dr := dropped S cp e) in *. set (ls := loss_of (V mod 2 ^ dr) (2 ^ dr)).
  pose proof (vhat_between S cp V e HS Hp HV) as B. fold dr in B. fold ls in B.
  assert (Hkd : kept S cp e = Z.max 0 (cp - dr)) by reflexivity.
  assert (s0 = V / 2 ^ dr) as Es.
  { rewrite E4. destruct (Z_lt_le_dec (kept S cp e) 1) as [L|L].
    - assert (kept S cp e = 0) as -> by lia. rewrite Z.pow_0_r, Z.mod_1_r. symmetry. apply Z.div_small.
      split; [pose proof (Z.pow_pos_nonneg 2 (cp - 1) ltac:(lia) ltac:(lia)); lia|].
      apply Z.lt_le_trans with (1 := proj2 HV). apply Z.pow_le_mono_r; [lia|]. lia.
    - replace (cp - kept S cp e) with dr by lia. apply Z.mod_small. split.
      + apply Z.div_pos; [pose proof (Z.pow_pos_nonneg 2 (cp - 1) ltac:(lia) ltac:(lia)); lia|apply Z.pow_pos_nonneg; lia].
      + apply Z.div_lt_upper_bound; [apply Z.pow_pos_nonneg; lia|]. rewrite <- Z.pow_add_r by lia.
        replace (dr + kept S cp e) with cp by lia. lia. }
  pose proof (vhat_pos cp V e ltac:(lia) ltac:(lia)) as Vp.
  assert (exists res, normalize S (mkFloat s0 (Z.max e (MIN_EXP S)) Normal false) m ls = Ret res /\
            crate_rounded S m (sgnr false (vhat cp V e)) false res) as [res [N1 N2]].
  { apply (normalize_spec_i32 S (mkFloat s0 (Z.max e (MIN_EXP S)) Normal false) m ls (vhat cp V e)); cbn [category sig exp sign]; try assumption.
    - reflexivity.
    - apply (Forall_inv E2).
    - lia.
    - lra.
    - rewrite Es. exact B.
    - right. destruct (cell_norm _ _ _ C) as [X|X]; [left; lia|right; rewrite Es; exact X].
    - intros Z0 _. destruct (cell_norm _ _ _ C) as [X|X]; [exact X|]. fold dr in X. rewrite <- Es, Z0 in X.
      pose proof (Z.pow_pos_nonneg 2 (PRECISION S - 1) ltac:(lia) ltac:(lia)). lia. }
  cbn [sgnr] in N2. apply crate_correct_pos in N2; [|lra].
  exists res. split; [|exact N2]. rewrite <- N1.
  destruct (Z_lt_le_dec e (MIN_EXP S - PRECISION S)) as [L|L].
  - replace (kept S cp e) with 0 by (unfold kept, dropped; lia).
    assert (s0 = 0) as ->.
    { rewrite Es. apply Z.div_small. split; [pose proof (Z.pow_pos_nonneg 2 (cp - 1) ltac:(lia) ltac:(lia)); lia|].
      apply Z.lt_le_trans with (1 := proj2 HV). apply Z.pow_le_mono_r; [lia|]. unfold dr, dropped. lia. }
    replace (Z.max e (MIN_EXP S)) with (MIN_EXP S) by lia. apply normalize_tiny; [assumption|lia|].
    unfold ls. intro X. apply loss_zero in X; [|apply Z.pow_pos_nonneg; lia].
    rewrite Z.mod_small in X; [pose proof (Z.pow_pos_nonneg 2 (cp - 1) ltac:(lia) ltac:(lia)); lia|].
    split; [pose proof (Z.pow_pos_nonneg 2 (cp - 1) ltac:(lia) ltac:(lia)); lia|].
    apply Z.lt_le_trans with (1 := proj2 HV). apply Z.pow_le_mono_r; [lia|]. unfold dr, dropped. lia.
  - replace (e + (PRECISION S - kept S cp e)) with (Z.max e (MIN_EXP S)) by (unfold kept, dropped; lia). reflexivity.
Qed.

(** ** Acceptance *)
Definition scaled (cp e : Z) (x : R) : R := x * bpow r2 (- (e - (cp - 1))).
Lemma unscale : forall cp e x, x = (scaled cp e x * bpow r2 (e - (cp - 1)))%R.
Proof.
  intros. unfold scaled. rewrite Rmult_assoc, <- bpow_plus. replace (_ + _) with 0 by lia. cbn [bpow]. ring.
Qed.

Theorem accept_nearest : forall S m cp V e H U x, sem_ok S -> PRECISION S <= cp - 4 -> 2 ^ (cp - 1) <= V < 2 ^ cp ->
  nearest m = true -> (0 < x)%R -> 0 <= H <= 7 -> bounded_by H V (scaled cp e x) ->
  (cp < dropped S cp e -> forall j, (bpow r2 j <= x)%R -> (bpow r2 j <= vhat cp V e)%R) ->
  let bits := cp - kept S cp e - 1 in
  U <= Z.abs (V mod 2 ^ (bits + 1) - 2 ^ bits) -> H <= 2 * U ->
  rounded S m x = rounded S m (vhat cp V e).
Proof.
  intros S m cp V e H U x HS Hp HV Hm Hx HH [B0 B1] Mono bits HU HHU.
  destruct (cell_of S cp V e HS Hp HV) as [C [Eu D4]]. pose proof (ok_prec S HS) as Pp.
  set (dr := dropped S cp e) in *. set (u := bpow r2 (e - (cp - 1))) in *.
  assert (0 < u)%R as Pu by apply bpow_gt_0.
  assert (0 < 2 ^ (cp - 1)) as PV by (apply Z.pow_pos_nonneg; lia).
  pose proof (unscale cp e x) as Ex. fold u in Ex. set (X := scaled cp e x) in *.
  destruct (Z.eq_dec H 0) as [H0|H0].
  { rewrite Ex, (B0 H0). reflexivity. }
  assert (Hkd : kept S cp e = Z.max 0 (cp - dr)) by reflexivity.
  destruct (Z_lt_le_dec cp dr) as [Sat|Sat].
  - (* less than half the smallest number *)
    assert (MIN_EXP S - PRECISION S >= e + 1) as He by (unfold dr, dropped in Sat; lia).
    assert (V / 2 ^ dr = 0) as G0.
    { apply Z.div_small. split; [lia|]. apply Z.lt_le_trans with (1 := proj2 HV). apply Z.pow_le_mono_r; lia. }
    assert (Hsmall : forall y, (0 < y)%R -> (y < bpow r2 (e + 1))%R -> rounded S m y = 0%R).
    { intros y Y0 Y1. rewrite (cell_low S m _ _ y HS C Hm); [rewrite G0; ring|lra|]. rewrite G0, Rmult_0_l.
      pose proof (unit_pos S (Z.max e (MIN_EXP S))). split; [lra|].
      apply Rlt_le_trans with (1 := Y1). rewrite Rplus_0_l. unfold unit_of.
      replace (bpow r2 (Z.max e (MIN_EXP S) - (PRECISION S - 1)) / 2)%R with (bpow r2 (Z.max e (MIN_EXP S) - PRECISION S)).
      - apply bpow_le. lia.
      - replace (Z.max e (MIN_EXP S) - PRECISION S) with (Z.max e (MIN_EXP S) - (PRECISION S - 1) + -1) by lia. rewrite bpow_plus. reflexivity. }
    assert (vhat cp V e < bpow r2 (e + 1))%R as Hv.
    { unfold vhat. fold u. replace (e + 1) with (cp + (e - (cp - 1))) by lia. rewrite bpow_plus. fold u.
      apply Rmult_lt_compat_r; [assumption|]. rewrite <- IZR_pow2 by lia. apply IZR_lt. lia. }
    rewrite !Hsmall; [reflexivity|apply vhat_pos; lia|assumption|assumption|].
    apply Rnot_le_lt. intro L. specialize (Mono Sat _ L). lra.
  - assert (bits + 1 = dr) as Eb by (unfold bits; lia). rewrite Eb in HU. replace bits with (dr - 1) in HU by lia.
    assert (2 ^ dr = 2 * 2 ^ (dr - 1)) as P2 by (rewrite <- Z.pow_succ_r by lia; f_equal; lia).
    assert (2 ^ 3 <= 2 ^ (dr - 1)) as P3 by (apply Z.pow_le_mono_r; lia).
    pose proof (Z.div_mod V (2 ^ dr) ltac:(lia)) as DM. pose proof (Z.mod_pos_bound V (2 ^ dr) ltac:(lia)) as MB.
    set (w := V mod 2 ^ dr) in *. set (G := V / 2 ^ dr) in *. set (h := 2 ^ (dr - 1)) in *.
    assert (exists D, H <= 2 * D /\ D <= U /\ D <= 4 /\ 0 < D) as [D [HD1 [HD2 [HD3 HD4]]]].
    { exists (Z.min U 4). lia. }
    specialize (B1 D ltac:(lia)). apply Rabs_def2 in B1. destruct B1 as [B1 B2].
    assert (EV : (IZR V = 2 * IZR h * IZR G + IZR w)%R) by (rewrite <- !mult_IZR, <- plus_IZR; f_equal; lia).
    assert (RD : (IZR D <= 4)%R) by (apply IZR_le; assumption).
    assert (Rh : (8 <= IZR h)%R) by (apply IZR_le; lia).
    assert (Rw : (0 <= IZR w)%R) by (apply IZR_le; lia).
    assert (Eunit : unit_of S (Z.max e (MIN_EXP S)) = (2 * IZR h * u)%R) by (rewrite Eu, P2, mult_IZR; reflexivity).
    unfold vhat. fold u.
    assert (w < h \/ h < w) as [Hw|Hw] by lia.
    + assert (RW : (IZR w + IZR D <= IZR h)%R) by (rewrite <- plus_IZR; apply IZR_le; lia).
      assert (0 < IZR D)%R by (apply IZR_lt; lia).
      rewrite (cell_low S m _ _ x HS C Hm), (cell_low S m _ _ (IZR V * u) HS C Hm); [reflexivity| | |lra|]; rewrite ?Eunit; fold G.
      * apply Rlt_le, vhat_pos with (e := e); lia.
      * rewrite EV. split; nra.
      * rewrite Ex. split; nra.
    + assert (RW : (IZR h + IZR D <= IZR w)%R) by (rewrite <- plus_IZR; apply IZR_le; lia).
      assert (0 < IZR D)%R by (apply IZR_lt; lia).
      assert (RW2 : (IZR w < 2 * IZR h)%R) by (rewrite <- mult_IZR; apply IZR_lt; lia).
      rewrite (cell_high S m _ _ x HS C Hm), (cell_high S m _ _ (IZR V * u) HS C Hm); [reflexivity| |]; rewrite ?Eunit; fold G.
      * rewrite EV. split; nra.
      * rewrite Ex. split; nra.
Qed.

Theorem accept_directed : forall S m cp V e H U x, sem_ok S -> PRECISION S <= cp - 4 -> 2 ^ (cp - 1) <= V < 2 ^ cp ->
  nearest m = false -> 0 <= H -> bounded_by H V (scaled cp e x) ->
  (IZR V <= scaled cp e x < IZR V + 1)%R ->
  let bits := cp - kept S cp e - 1 in
  U <= V mod 2 ^ (bits + 1) -> H <= 2 * U ->
  x = vhat cp V e \/
  rounded S m x = rounded S m (vhat cp V e) /\ rounded S m x <> x /\ rounded S m (vhat cp V e) <> vhat cp V e.
Proof.
  intros S m cp V e H U x HS Hp HV Hm HH [B0 B1] HX bits HU HHU.
  destruct (cell_of S cp V e HS Hp HV) as [C [Eu D4]]. pose proof (ok_prec S HS) as Pp.
  set (dr := dropped S cp e) in *. set (u := bpow r2 (e - (cp - 1))) in *.
  assert (0 < u)%R as Pu by apply bpow_gt_0.
  assert (0 < 2 ^ (cp - 1)) as PV by (apply Z.pow_pos_nonneg; lia).
  pose proof (unscale cp e x) as Ex. fold u in Ex. set (X := scaled cp e x) in *.
  destruct (Z.eq_dec H 0) as [H0|H0].
  { left. rewrite Ex, (B0 H0). reflexivity. }
  right. assert (Hkd : kept S cp e = Z.max 0 (cp - dr)) by reflexivity.
  assert (P2 : 0 < 2 ^ dr) by (apply Z.pow_pos_nonneg; lia).
  pose proof (Z.div_mod V (2 ^ dr) ltac:(lia)) as DM. pose proof (Z.mod_pos_bound V (2 ^ dr) ltac:(lia)) as MB.
  assert (1 <= V mod 2 ^ dr) as Hw.
  { destruct (Z_lt_le_dec cp dr) as [Sat|Sat].
    - rewrite Z.mod_small; [lia|]. split; [lia|]. apply Z.lt_le_trans with (1 := proj2 HV). apply Z.pow_le_mono_r; lia.
    - replace (bits + 1) with dr in HU by (unfold bits; lia). lia. }
  set (w := V mod 2 ^ dr) in *. set (G := V / 2 ^ dr) in *.
  assert (EV : (IZR V = IZR (2 ^ dr) * IZR G + IZR w)%R) by (rewrite <- !mult_IZR, <- plus_IZR; f_equal; lia).
  assert (R1 : (1 <= IZR w)%R) by (apply IZR_le; assumption).
  assert (R2 : (IZR w + 1 <= IZR (2 ^ dr))%R) by (rewrite <- plus_IZR; apply IZR_le; lia).
  apply (cell_directed S m G _ x (vhat cp V e) HS C Hm); rewrite Eu, plus_IZR; [rewrite Ex|unfold vhat; fold u]; split; nra.
Qed.

(** an inexact quotient stays away from every boundary, once enough bits are computed *)
Lemma far_boundary : forall n q sg c B, 0 < n -> 0 < q -> bitlen q + 140 <= sg -> bitlen q + 140 <= c ->
  (n * 2 ^ sg) mod q <> 0 -> 2 ^ 139 <= Z.abs (n * 2 ^ sg / q - B * 2 ^ c).
Proof.
  intros n q sg c B Hn Hq Hs Hc Hmod. pose proof (bitlen_nonneg q) as Bq. pose proof (bitlen_spec q Hq) as [_ Bq2].
  set (T := 2 ^ (bitlen q + 140)).
  assert (exists a, 2 ^ sg = a * T) as [a Ea] by (exists (2 ^ (sg - (bitlen q + 140))); unfold T; rewrite <- Z.pow_add_r by lia; f_equal; lia).
  assert (exists b, 2 ^ c = b * T) as [b Eb] by (exists (2 ^ (c - (bitlen q + 140))); unfold T; rewrite <- Z.pow_add_r by lia; f_equal; lia).
  assert (T = 2 ^ bitlen q * 2 ^ 140) as ET by (unfold T; rewrite Z.pow_add_r by lia; reflexivity).
  pose proof (Z.div_mod (n * 2 ^ sg) q ltac:(lia)) as DM. pose proof (Z.mod_pos_bound (n * 2 ^ sg) q ltac:(lia)) as MB.
  set (V := n * 2 ^ sg / q) in *. set (r := (n * 2 ^ sg) mod q) in *. clearbody V r. rewrite Ea in DM. rewrite Eb.
  set (k := n * a - q * (B * b)).
  assert (k * T = q * (V - B * (b * T)) + r) as Ek by (unfold k; lia).
  assert (k <> 0) as Nk.
  { intro Z0. rewrite Z0 in Ek. assert (r = q * - (V - B * (b * T))) as Er by lia.
    assert (- (V - B * (b * T)) = 0); nia. }
  clearbody k. set (W := V - B * (b * T)) in *. clearbody W. clear - Ek Nk MB Bq2 ET Hq.
  assert (q * 2 ^ 140 <= T) by nia. clear ET Bq2. assert (T <= Z.abs (k * T)) by (rewrite Z.abs_mul; nia).
  assert (q * 2 ^ 139 <= Z.abs (q * W)) by lia. rewrite Z.abs_mul, (Z.abs_eq q) in H1 by lia. nia.
Qed.

Definition far (m : Round) (bits V : Z) : Prop :=
  let w := V mod 2 ^ (bits + 1) in
  if nearest m then 2 ^ 139 <= Z.abs (w - 2 ^ bits) else 2 ^ 139 <= w /\ w + 2 ^ 139 <= 2 ^ (bits + 1).
Lemma far_quotient : forall m n q cp a b al be s bits, 0 < n -> 0 < q -> 0 <= al -> 0 <= be -> 0 <= s ->
  a = n * 2 ^ al -> b = q * 2 ^ be -> 2 ^ (cp - 1) <= a * 2 ^ s / b ->
  bitlen n + bitlen q + 142 <= cp -> bitlen q + 140 <= bits ->
  (a * 2 ^ s) mod b <> 0 -> far m bits (a * 2 ^ s / b).
Proof.
  intros m n q cp a b al be s bits Hn Hq Hal Hbe Hs -> -> HV Hcp Hb Hmod.
  pose proof (bitlen_nonneg q) as Bq. pose proof (bitlen_nonneg n) as Bn.
  pose proof (bitlen_spec n Hn) as [_ Bn2].
  assert (Hbp : 0 < 2 ^ be) by (apply Z.pow_pos_nonneg; lia).
  assert (Hle : be <= al + s).
  { destruct (Z_le_gt_dec be (al + s)) as [L|L]; [assumption|]. exfalso.
    assert (n * 2 ^ al * 2 ^ s / (q * 2 ^ be) <= n).
    { rewrite <- Z.mul_assoc, <- Z.pow_add_r by lia. apply Z.div_le_upper_bound; [nia|].
      assert (2 ^ (al + s) <= 2 ^ be) by (apply Z.pow_le_mono_r; lia).
      apply Z.le_trans with (n * (q * 2 ^ be)); [|lia]. apply Z.mul_le_mono_nonneg_l; [lia|].
      apply Z.le_trans with (1 := H). rewrite <- (Z.mul_1_l (2 ^ be)) at 1. apply Z.mul_le_mono_nonneg_r; lia. }
    assert (2 ^ bitlen n <= 2 ^ (cp - 1)) by (apply Z.pow_le_mono_r; lia). lia. }
  set (sg := al + s - be).
  assert (n * 2 ^ al * 2 ^ s = n * 2 ^ sg * 2 ^ be) as E by (rewrite <- !Z.mul_assoc, <- !Z.pow_add_r by lia; f_equal; f_equal; lia).
  rewrite E in *. rewrite Z.div_mul_cancel_r in * by lia. rewrite Zmult_mod_distr_r in Hmod.
  assert ((n * 2 ^ sg) mod q <> 0) as Hm by nia.
  assert (bitlen q + 140 <= sg) as Hsg.
  { assert (2 ^ (cp - 1) < 2 ^ (bitlen n + sg)).
    { apply Z.le_lt_trans with (1 := HV). apply Z.le_lt_trans with (n * 2 ^ sg).
      - apply Z.div_le_upper_bound; [assumption|]. rewrite <- (Z.mul_1_l (n * 2 ^ sg)) at 1.
        apply Z.mul_le_mono_nonneg_r; [apply Z.mul_nonneg_nonneg; [lia|apply Z.pow_nonneg; lia]|lia].
      - rewrite Z.pow_add_r by lia. apply Z.mul_lt_mono_pos_r; [apply Z.pow_pos_nonneg; lia|assumption]. }
    apply Z.pow_lt_mono_r_iff in H; lia. }
  pose proof (fun B => far_boundary n q sg bits B Hn Hq Hsg Hb Hm) as F.
  set (V := n * 2 ^ sg / q) in *. clearbody V. unfold far.
  assert (2 ^ (bits + 1) = 2 * 2 ^ bits) as P2 by (rewrite Z.pow_add_r by lia; lia).
  assert (0 < 2 ^ bits) by (apply Z.pow_pos_nonneg; lia).
  pose proof (Z.div_mod V (2 ^ (bits + 1)) ltac:(lia)) as DM. pose proof (Z.mod_pos_bound V (2 ^ (bits + 1)) ltac:(lia)) as MB.
  set (w := V mod 2 ^ (bits + 1)) in *. set (Q := V / 2 ^ (bits + 1)) in *.
  destruct (nearest m).
  - specialize (F (2 * Q + 1)). replace (w - 2 ^ bits) with (V - (2 * Q + 1) * 2 ^ bits) by lia. exact F.
  - pose proof (F (2 * Q)) as F1. pose proof (F (2 * Q + 2)) as F2.
    replace (V - 2 * Q * 2 ^ bits) with w in F1 by lia. replace (V - (2 * Q + 2) * 2 ^ bits) with (w - 2 ^ (bits + 1)) in F2 by lia. lia.
Qed.

(** src/ieee.rs:2624-2691: the end of an attempt, and what to do if it is rejected *)
Definition judge (S : Semantics) (m : Round) (cp : Z) (sc : list Z) (e used tb h1 h2 : Z) (l : Loss)
    (retry : outcome (Z * Float)) : outcome (Z * Float) :=
    let! cp1 := usub cp 1 in
    let! top := get_bit sc cp1 in
    assertb top (
    assertb ((h1 <? 2) || (h2 <? 2) || (h1 + h2 <? 8)) (
    let inexact := b2z (negb (loss_eqb l ExactlyZero)) in
    let half_ulp_err :=
      if h1 + h2 =? 0 then inexact * 2
      else inexact + 2 * (h1 + h2) in
    let! ulps := ulps_from_boundary sc cp used m in
    if half_ulp_err <=? sat128 (ulps * 2) then
      let! lsb := usub cp used in
      let! l := extract [0] sc used lsb in
      let! s0 := get l 0 in
      let! d := usub (PRECISION S) used in
      let! e := chk32 (e + as_i32 d) in
      let! loss := through_truncation sc tb in
      normalize S (mkFloat s0 e Normal false) m loss
    else retry)).

(** what an accepted attempt delivers: [res] is right for a number [v] close to [x] *)
Definition delivered (S : Semantics) (m : Round) (x : R) (sharp : Prop) (res : Z * Float) : Prop :=
  exists v, (0 < v)%R /\ correctly_rounded S m v false res /\ (Rabs (x - v) <= v * bpow r2 (-124))%R /\
    (nearest m = true -> rounded S m x = rounded S m v) /\
    (sharp -> nearest m = false -> correctly_rounded S m x false res) /\
    (sharp -> generic_format r2 (FLX_exp 127) x -> x = v).

Theorem judge_spec : forall S m cp sc e h1 h2 l retry x (sharp : Prop), sem_ok S -> PRECISION S <= cp - 4 -> 127 <= cp <= 2 ^ 29 ->
  limbs sc -> cp <= nbits sc -> 2 ^ (cp - 1) <= lval sc < 2 ^ cp -> - 2 ^ 30 <= e <= 2 ^ 30 -> (0 < x)%R ->
  0 <= h1 <= 1 -> 0 <= h2 <= 2 -> bounded_by (half_ulps h1 h2 l) (lval sc) (scaled cp e x) ->
  (cp < dropped S cp e -> forall j, (bpow r2 j <= x)%R -> (bpow r2 j <= vhat cp (lval sc) e)%R) ->
  (sharp -> (IZR (lval sc) <= scaled cp e x < IZR (lval sc) + 1)%R) ->
  (exists res, judge S m cp sc e (kept S cp e) (dropped S cp e) h1 h2 l retry = Ret res /\ delivered S m x sharp res) \/
  (judge S m cp sc e (kept S cp e) (dropped S cp e) h1 h2 l retry = retry /\ half_ulps h1 h2 l <> 0 /\ ~ far m (cp - kept S cp e - 1) (lval sc)).
Proof.
  intros S m cp sc e h1 h2 l retry x sharp HS Hp Hcp Hl Hn HV He Hx Hh1 Hh2 HB Mono Sharp.
  pose proof (ok_prec S HS) as Pp. unfold judge.
  rewrite usub_ret by lia. cbn [bind]. rewrite get_bit_spec by (try assumption; lia). cbn [bind].
  assert (Z.testbit (lval sc) (cp - 1) = true) as ->.
  { apply Z.testbit_true; [lia|]. replace (lval sc / 2 ^ (cp - 1)) with 1; [reflexivity|].
    apply Z.div_unique with (lval sc - 2 ^ (cp - 1)); [|lia].
    assert (2 ^ cp = 2 * 2 ^ (cp - 1)) by (rewrite <- Z.pow_succ_r by lia; f_equal; lia). left. lia. }
  cbn [assertb]. assert ((h1 <? 2) = true) as -> by lia. cbn [orb assertb].
  fold (half_ulps h1 h2 l). change (if h1 + h2 =? 0 then b2z (negb (loss_eqb l ExactlyZero)) * 2 else b2z (negb (loss_eqb l ExactlyZero)) + 2 * (h1 + h2))
    with (half_ulps h1 h2 l).
  assert (0 <= half_ulps h1 h2 l <= 7) as HH.
  { unfold half_ulps. destruct (loss_eqb l ExactlyZero); cbn [negb b2z]; destruct (Z.eqb_spec (h1 + h2) 0); lia. }
  set (H := half_ulps h1 h2 l) in *. clearbody H.
  assert (0 <= kept S cp e <= PRECISION S) as Hk by (unfold kept, dropped; lia).
  destruct (ulps_spec sc cp (kept S cp e) m Hl ltac:(lia) Hn) as [U [E1 [U1 [U2 [U3 U4]]]]]. rewrite E1. cbn [bind].
  set (V := lval sc) in *.
  destruct (Z.leb_spec H (sat128 (U * 2))) as [A|A].
  - left. assert (H <= 2 * U) as HU by (unfold sat128 in A; lia).
    destruct (finish_spec S m sc cp e HS Hp ltac:(lia) Hl Hn HV He) as [res [F1 F2]]. exists res. split.
    + rewrite <- F1. destruct (usub cp (kept S cp e)); cbn [bind]; try reflexivity.
      destruct (extract [0] sc (kept S cp e) a); cbn [bind]; try reflexivity.
      destruct (get a0 0); cbn [bind]; try reflexivity. rewrite usub_ret by lia. cbn [bind].
      rewrite as_i32_id by lia. rewrite chk32_ret by lia. cbn [bind].
      replace (e + (PRECISION S - kept S cp e) - (PRECISION S - kept S cp e)) with e by lia. reflexivity.
    + exists (vhat cp V e). pose proof (vhat_pos cp V e ltac:(lia) ltac:(lia)) as Vp. split; [assumption|]. split; [exact F2|].
      pose proof (unscale cp e x) as Ex. set (X := scaled cp e x) in *. pose proof (bpow_gt_0 r2 (e - (cp - 1))) as Pu.
      split; [|split; [|split]].
      * assert (Rabs (X - IZR V) < 4)%R as D4.
        { destruct HB as [B0 B1]. destruct (Z.eq_dec H 0) as [H0|H0].
          - rewrite (B0 H0), Rminus_diag_eq, Rabs_R0 by reflexivity. lra.
          - apply B1. lia. }
        replace (x - vhat cp V e)%R with ((X - IZR V) * bpow r2 (e - (cp - 1)))%R by (rewrite Ex at 2 || rewrite Ex; unfold vhat; ring).
        rewrite Rabs_mult, (Rabs_pos_eq (bpow r2 (e - (cp - 1)))) by lra. unfold vhat.
        rewrite Rmult_assoc, (Rmult_comm (bpow r2 (e - (cp - 1)))), <- Rmult_assoc. apply Rmult_le_compat_r; [lra|].
        apply Rlt_le, Rlt_le_trans with (1 := D4).
        apply Rle_trans with (bpow r2 126 * bpow r2 (-124))%R; [rewrite <- bpow_plus; cbn; lra|].
        apply Rmult_le_compat_r; [apply bpow_ge_0|]. rewrite <- IZR_pow2 by lia. apply IZR_le.
        apply Z.le_trans with (2 := proj1 HV). apply Z.pow_le_mono_r; lia.
      * intro Nm. apply (accept_nearest S m cp V e H U x); auto.
      * intros Sh Nm. destruct (accept_directed S m cp V e H U x HS Hp HV Nm ltac:(lia) HB (Sharp Sh) (U3 Nm) HU) as [Eq|[Q1 [Q2 Q3]]].
        -- rewrite Eq. exact F2.
        -- apply cr_transfer_inexact with (vhat cp V e); assumption.
      * intros Sh Fx. specialize (Sharp Sh). fold X in Sharp.
        rewrite Ex at 1. unfold vhat. f_equal.
        assert (Fc : generic_format r2 (FLX_exp cp) x).
        { apply generic_inclusion_mag with (2 := Fx). intros _. unfold FLX_exp. lia. }
        assert (Em : mag r2 x = (e + 1) :> Z).
        { apply mag_unique. rewrite Rabs_pos_eq by lra. rewrite Ex. assert (bpow r2 (e + 1 - 1) = bpow r2 (cp - 1) * bpow r2 (e - (cp - 1)))%R as -> by (rewrite <- bpow_plus; f_equal; lia).
          assert (bpow r2 (e + 1) = bpow r2 cp * bpow r2 (e - (cp - 1)))%R as -> by (rewrite <- bpow_plus; f_equal; lia).
          rewrite <- (IZR_pow2 (cp - 1)), <- (IZR_pow2 cp) by lia. split; [apply Rmult_le_compat_r; [lra|]|apply Rmult_lt_compat_r; [lra|]].
          - apply Rle_trans with (IZR V); [apply IZR_le; lia|lra].
          - apply Rlt_le_trans with (IZR V + 1)%R; [lra|]. rewrite <- plus_IZR. apply IZR_le. lia. }
        unfold generic_format in Fc. unfold F2R, scaled_mantissa, cexp, FLX_exp in Fc. rewrite Em in Fc. cbn [Fnum Fexp] in Fc.
        replace (e + 1 - cp) with (e - (cp - 1)) in Fc by lia. fold (scaled cp e x) in Fc. fold X in Fc.
        assert (X = IZR (Ztrunc X)) as EX.
        { apply Rmult_eq_reg_r with (bpow r2 (e - (cp - 1))); [|lra]. rewrite <- Ex. exact Fc. }
        rewrite EX in Sharp |- *. f_equal. destruct Sharp as [S1 S2]. apply le_IZR in S1. rewrite <- plus_IZR in S2. apply lt_IZR in S2. lia.
  - right. split; [reflexivity|]. split; [unfold sat128 in A; unfold LIMB_MAX, LIMB_MOD in *; lia|].
    intro F. rewrite (U4 F) in A. unfold sat128, LIMB_MAX, LIMB_MOD in A. lia.
Qed.
