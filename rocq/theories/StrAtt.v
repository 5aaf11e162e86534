(** * StrAtt.v -- approximating a decimal numeral with big numbers *)
From Coq Require Import ZArith Reals List Bool Lia Lra ZifyBool.
From Flocq Require Import Core Bracket Round.
From Verif Require Import Machine Sig SpecSig Limbs SigProofs SigProofs2 SigProofs3 SigProofs4 Ieee Spec Norm Arith Parse StrNum.
Import ListNotations.
Local Open Scope Z_scope.
Ltac Zify.zify_post_hook ::= idtac.
Local Notation length := List.length.

(** ** Rounding a big number to [cp] bits *)
Definition near (cp : Z) (x : R) : R := round r2 (FLX_exp cp) ZnearestE x.

Lemma mag_bitlen : forall n, 0 < n -> mag r2 (IZR n) = bitlen n :> Z.
Proof.
  intros n Hn. apply mag_unique. rewrite Rabs_pos_eq by (apply IZR_le; lia).
  pose proof (bitlen_spec n Hn) as [A B].
  assert (0 < bitlen n) by (rewrite bitlen_pos by lia; pose proof (Z.log2_nonneg n); lia).
  rewrite <- !IZR_Zpower by lia. change (Zpower r2 ?k) with (2 ^ k). split; [apply IZR_le; assumption|apply IZR_lt; assumption].
Qed.
Lemma near_eq : forall cp n k l, 0 < cp -> 0 < n -> bitlen n = cp + k ->
  between (n / 2 ^ k) k (IZR n) l ->
  near cp (IZR n) = (IZR (cond_incr (round_N (negb (Z.even (n / 2 ^ k))) (loc_of l)) (n / 2 ^ k)) * bpow r2 k)%R.
Proof.
  intros cp n k l Hcp Hn Hk Hb. unfold near. 
  assert (cexp r2 (FLX_exp cp) (IZR n) = k) as E by (unfold cexp, FLX_exp; rewrite mag_bitlen by assumption; lia).
  rewrite (inbetween_float_NE r2 (FLX_exp cp) (IZR n) (n / 2 ^ k) (loc_of l)) by (rewrite E; exact Hb).
  rewrite E. reflexivity.
Qed.

Lemma len_of_resize : forall l n, 0 <= n -> nbits (resize l n) = 128 * n.
Proof. intros. unfold nbits, nlimbs, resize. rewrite app_length, firstn_length, repeat_length. lia. Qed.

Theorem calc_normal_spec : forall cp nl buf l, limbs buf -> limbs l -> cp + 1 = 128 * nl -> 1 <= nl -> cp <= 2 ^ 30 ->
  nbits l <= 2 ^ 30 -> 0 < lval l ->
  exists d st e, calc_normal_from_limbs cp buf l = Ret (d, st, e) /\ limbs d /\ nbits d = 128 * nl /\
    2 ^ (cp - 1) <= lval d < 2 ^ cp /\ bitlen (lval l) - 1 <= e <= bitlen (lval l) /\
    (IZR (lval d) * bpow r2 (e - (cp - 1)) = near cp (IZR (lval l)))%R /\
    (st = OK /\ near cp (IZR (lval l)) = IZR (lval l) \/ st = INEXACT /\ cp < bitlen (lval l)).
Proof.
  intros cp nl buf l Hbuf Hl Hcp Hnl Hcp30 Hnb Hpos. unfold calc_normal_from_limbs.
  assert (limbs_for_bits cp = nl) as -> by (apply limbs_for_bits_eq; lia).
  destruct (resize_spec buf nl Hbuf ltac:(lia)) as [R1 R2]. 
  set (b0 := resize buf nl) in *. assert (nbits b0 = 128 * nl) as R3 by (unfold nbits, nlimbs; rewrite R2; reflexivity). clearbody b0.
  set (n := lval l) in *.
  assert (bitlen n <= 2 ^ 30) as Ho.
  { apply Z.le_trans with (nbits l); [|assumption]. apply bitlen_le; [lia|apply nbits_nonneg|]. apply lval_bound; assumption. }
  destruct (from_limbs_spec b0 l cp R1 Hl) as [d [D1 [D2 [D3 D4]]]];
    [lia|rewrite (limbs_for_bits_eq cp nl) by lia; unfold nlimbs; lia|lia|fold n; lia|].
  fold n in D1, D4. rewrite D1. cbn [bind]. clear D1.
  assert (nbits d = 128 * nl) as Nd by (unfold nbits, nlimbs; rewrite D3; exact R3).
  rewrite omsb_spec by assumption.
  pose proof (bitlen_spec n Hpos) as [B1 B2].
  assert (0 < bitlen n) as Bp by (rewrite bitlen_pos by lia; pose proof (Z.log2_nonneg n); lia).
  destruct (Z_lt_le_dec (bitlen n) cp) as [Hs|Hs].
  - replace (Z.max 0 (bitlen n - cp)) with 0 in * by lia. rewrite Z.pow_0_r, Z.div_1_r in D4. rewrite D4.
    rewrite Z.pow_0_r, Z.mod_1_r.
    assert ((bitlen n =? 0) = false) as -> by lia. cbn [negb assertb].
    rewrite !as_i32_id, chk32_ret by lia. cbn [bind]. rewrite sat32_id by lia.
    assert ((cp - 1 + 0 + (bitlen n - cp) <? cp - 1 + 0) = true) as -> by lia.
    change (loss_eqb (loss_of 0 1) ExactlyZero) with true. cbn [assertb]. rewrite chk32_ret by lia. cbn [bind].
    destruct (shift_left_exact d (cp - 1 + 0) (cp - 1 + 0 - (cp - 1 + 0 + (bitlen n - cp)))) as [d' [E1 [E2 [E3 E4]]]]; [assumption|lia|lia| |].
    { rewrite D4, Nd. replace (128 * nl) with (bitlen n + (128 * nl - bitlen n)) by lia. rewrite Z.pow_add_r by lia.
      apply Z.lt_le_trans with (2 ^ bitlen n * 2 ^ (cp - 1 + 0 - (cp - 1 + 0 + (bitlen n - cp)))).
      - apply Z.mul_lt_mono_pos_r; [apply Z.pow_pos_nonneg; lia|assumption].
      - apply Z.mul_le_mono_nonneg_l; [lia|]. apply Z.pow_le_mono_r; lia. }
    rewrite E1. cbn [bind]. eexists _, _, _. split; [reflexivity|]. split; [assumption|].
    split; [unfold nbits, nlimbs; rewrite E3; exact Nd|].
    rewrite D4 in E4. replace (cp - 1 + 0 - (cp - 1 + 0 + (bitlen n - cp))) with (cp - bitlen n) in * by lia.
    assert (near cp (IZR n) = IZR n) as Ex.
    { unfold near. apply round_generic; [apply valid_rnd_N|]. apply generic_format_FLX. exists (Defs.Float r2 n 0); [unfold F2R; cbn; ring|].
      cbn [Fnum]. rewrite Z.abs_eq by lia. change (Zpower r2 ?k) with (2 ^ k). apply Z.lt_le_trans with (1 := B2). apply Z.pow_le_mono_r; lia. }
    split.
    { rewrite E4. replace (cp - 1) with (bitlen n - 1 + (cp - bitlen n)) by lia. rewrite Z.pow_add_r by lia.
      replace (2 ^ cp) with (2 ^ bitlen n * 2 ^ (cp - bitlen n)) by (rewrite <- Z.pow_add_r by lia; f_equal; lia).
      pose proof (Z.pow_pos_nonneg 2 (cp - bitlen n) ltac:(lia) ltac:(lia)). nia. }
    split; [lia|]. split; [|left; split; [reflexivity|exact Ex]].
    rewrite Ex, E4, mult_IZR. replace (IZR (2 ^ (cp - bitlen n))) with (bpow r2 (cp - bitlen n)) by (rewrite <- IZR_Zpower by lia; reflexivity).
    rewrite Rmult_assoc, <- bpow_plus. replace (cp - bitlen n + _) with 0 by lia. cbn [bpow]. ring.
  - replace (Z.max 0 (bitlen n - cp)) with (bitlen n - cp) in * by lia. set (k := bitlen n - cp) in *.
    assert (bitlen (n / 2 ^ k) = cp) as Hb by (rewrite bitlen_shiftr by lia; lia).
    rewrite D4, Hb. assert ((cp =? 0) = false) as -> by lia. cbn [negb assertb].
    rewrite !as_i32_id, chk32_ret by lia. cbn [bind]. rewrite sat32_id by lia.
    replace (cp - 1 + k + (cp - cp)) with (cp - 1 + k) by lia. rewrite Z.ltb_irrefl. cbn [bind]. rewrite Z.eqb_refl. cbn [assertb].
    pose proof (between_frac n (2 ^ k) k (IZR n) ltac:(apply Z.pow_pos_nonneg; lia)) as X.
    rewrite <- (IZR_Zpower r2 k) in X by lia. change (Zpower r2 k) with (2 ^ k) in X. specialize (X eq_refl).
    set (ls := loss_of (n mod 2 ^ k) (2 ^ k)) in *.
    pose proof (near_eq cp n k ls ltac:(lia) Hpos ltac:(lia) X) as N.
    assert (2 ^ (cp - 1) <= n / 2 ^ k < 2 ^ cp) as HV by (pose proof (bitlen_spec (n / 2 ^ k)) as Y; rewrite Hb in Y; apply Y;
      destruct (Z_lt_le_dec 0 (n / 2 ^ k)); [assumption|]; exfalso; assert (n / 2 ^ k = 0) as Z0 by (pose proof (Z.div_pos n (2 ^ k) ltac:(lia) ltac:(apply Z.pow_pos_nonneg; lia)); lia);
      rewrite Z0 in Hb; change (bitlen 0) with 0 in Hb; lia).
    assert (cp - 1 + k - (cp - 1) = k) as Ek by lia.
    assert (2 ^ cp * 2 = 2 ^ nbits d) as P1 by (rewrite Nd, <- Hcp, Z.pow_add_r by lia; reflexivity).
    assert (2 ^ cp = 2 * 2 ^ (cp - 1)) as P2 by (rewrite <- Z.pow_succ_r by lia; f_equal; lia).
    assert (0 < 2 ^ (cp - 1)) by (apply Z.pow_pos_nonneg; lia).
    destruct (loss_eqb ls ExactlyZero) eqn:El.
    { apply loss_eqb_exact in El. rewrite El in X, N. cbn [loc_of round_N cond_incr] in N.
      eexists _, _, _. split; [reflexivity|]. split; [assumption|]. split; [assumption|]. rewrite D4.
      split; [assumption|]. split; [lia|]. rewrite Ek. split; [symmetry; exact N|]. left. split; [reflexivity|].
      rewrite N. apply between_exact in X. symmetry. exact X. }
    assert (cp < bitlen n) as Hlt.
    { destruct (Z.eq_dec k 0) as [K0|K0]; [|lia]. exfalso. unfold ls in El. rewrite K0, Z.pow_0_r, Z.mod_1_r in El. discriminate. }
    set (up := round_N (negb (Z.even (n / 2 ^ k))) (loc_of ls)) in *.
    assert ((if loss_eqb ls MoreThanHalf then Ret true else if loss_eqb ls ExactlyHalf then get_bit d 0 else Ret false) = Ret up) as ->.
    { unfold up. destruct ls; cbn [loss_eqb loc_of round_N]; try reflexivity; try discriminate.
      rewrite get_bit_spec by (try assumption; lia). rewrite D4. rewrite Z.bit0_odd, Z.negb_even. reflexivity. }
    cbn [bind]. destruct up eqn:Eu; cbn [cond_incr] in N.
    + pose proof (increment_spec d D2) as I. destruct (increment d) as [d' c]. destruct I as [I1 [I2 [I3 I4]]]. rewrite D4 in I4.
      pose proof (lval_nonneg d' I1). assert (c = 0 \/ c = 1) as [->| ->] by lia; [|exfalso; lia]. rewrite Z.eqb_refl. cbn [assertb]. rewrite omsb_spec by assumption.
      replace (lval d') with (n / 2 ^ k + 1) by lia.
      assert (nbits d' = 128 * nl) as Nd' by (unfold nbits, nlimbs; rewrite I2; exact Nd).
      destruct (Z.eqb_spec (bitlen (n / 2 ^ k + 1)) (cp + 1)) as [E|E].
      * assert (n / 2 ^ k + 1 = 2 ^ cp) as Et.
        { pose proof (bitlen_spec (n / 2 ^ k + 1) ltac:(lia)) as [Y _]. rewrite E in Y. replace (cp + 1 - 1) with cp in Y by lia. lia. }
        destruct (shift_right_spec d' (cp - 1 + k) 1) as [d2 [F1 [F2 [F3 F4]]]]; [assumption|lia|lia|].
        rewrite F1. cbn [bind]. eexists _, _, _. split; [reflexivity|]. split; [assumption|].
        split; [unfold nbits, nlimbs; rewrite F3; exact Nd'|].
        assert (lval d2 = 2 ^ (cp - 1)) as Ev.
        { rewrite F4. replace (lval d') with (2 ^ cp) by lia. rewrite P2, Z.pow_1_r. rewrite Z.mul_comm. apply Z.div_mul. lia. }
        rewrite Ev. split; [lia|]. split; [lia|]. split; [|right; split; [reflexivity|assumption]].
        rewrite N, Et. change (IZR (2 ^ ?k)) with (IZR (Zpower r2 k)). rewrite !IZR_Zpower, <- !bpow_plus by lia. f_equal. lia.
      * eexists _, _, _. split; [reflexivity|]. split; [assumption|]. split; [assumption|]. 
        replace (lval d') with (n / 2 ^ k + 1) by lia. split.
        { split; [lia|]. destruct (Z.eq_dec (n / 2 ^ k + 1) (2 ^ cp)) as [Y|Y]; [|lia]. exfalso. apply E. rewrite Y. apply bitlen_unique; [lia|].
          replace (cp + 1 - 1) with cp by lia. rewrite Z.pow_add_r by lia. lia. }
        split; [lia|]. rewrite Ek. split; [symmetry; exact N|]. right. split; [reflexivity|assumption].
    + eexists _, _, _. split; [reflexivity|]. split; [assumption|]. split; [assumption|]. rewrite D4. split; [assumption|]. split; [lia|].
      rewrite Ek. split; [symmetry; exact N|]. right. split; [reflexivity|assumption].
Qed.

(** ** Distance from the nearest rounding boundary *)
Definition nearest (m : Round) : bool :=
  match m with NearestTiesToEven | NearestTiesToAway => true | _ => false end.

Lemma all_max : forall l, limbs l -> existsb (fun x => negb (wrap128 (- x) =? 1)) l = false -> lval l = 2 ^ nbits l - 1.
Proof.
  induction l as [|x l IH]; intros Hl H; [reflexivity|]. cbn [existsb] in H. apply orb_false_elim in H. destruct H as [H1 H2].
  pose proof (Forall_inv Hl) as Hx. specialize (IH (Forall_inv_tail Hl) H2). cbn [lval].
  rewrite nbits_cons, Z.pow_add_r by (try apply nbits_nonneg; lia).
  apply negb_false_iff in H1. apply Z.eqb_eq in H1. unfold wrap128, LIMB_MOD in H1. unfold limb in Hx.
  assert (x = 2 ^ 128 - 1).
  { destruct (Z.eq_dec x 0) as [->|]; [discriminate H1|]. rewrite <- (Z.mod_unique (- x) (2 ^ 128) (-1) (2 ^ 128 - x)) in H1; lia. }
  rewrite IH. unfold LIMB_MOD. nia.
Qed.
Lemma not_all_max : forall l, limbs l -> existsb (fun x => negb (wrap128 (- x) =? 1)) l = true -> lval l <= 2 ^ nbits l - 2.
Proof.
  intros l Hl H. pose proof (lval_bound l Hl). destruct (Z.eq_dec (lval l) (2 ^ nbits l - 1)) as [E|E]; [|lia]. exfalso.
  clear H0. revert H E. induction l as [|x l IH]; intros H E; [discriminate|]. cbn [existsb] in H.
  pose proof (Forall_inv Hl) as Hx. pose proof (Forall_inv_tail Hl) as Hl'. cbn [lval] in E.
  rewrite nbits_cons, Z.pow_add_r in E by (try apply nbits_nonneg; lia). pose proof (lval_bound l Hl'). unfold limb in Hx. unfold LIMB_MOD in E.
  assert (x = 2 ^ 128 - 1 /\ lval l = 2 ^ nbits l - 1) as [-> E2].
  { assert (lval l = 2 ^ nbits l - 1) by nia. split; [|assumption]. nia. }
  change (negb (wrap128 (- (2 ^ 128 - 1)) =? 1)) with false in H. apply (IH Hl' H E2).
Qed.

Theorem ulps_spec : forall l cp used m, limbs l -> 0 <= used < cp -> cp <= nbits l ->
  let bits := cp - used - 1 in
  let w := lval l mod 2 ^ (bits + 1) in
  exists U, ulps_from_boundary l cp used m = Ret U /\ 0 <= U <= LIMB_MAX /\
    (nearest m = true -> U <= Z.abs (w - 2 ^ bits)) /\
    (nearest m = false -> U <= w) /\
    ((if nearest m then 2 ^ 139 <= Z.abs (w - 2 ^ bits) else 2 ^ 139 <= w /\ w + 2 ^ 139 <= 2 ^ (bits + 1)) -> U = LIMB_MAX).
Proof.
  intros l cp used m Hl Hu Hcp bits w. unfold ulps_from_boundary.
  rewrite usub_ret by lia. cbn [bind]. rewrite usub_ret by lia. cbn [bind]. fold bits.
  change LIMB_BITS with 128. set (i := bits / 128). set (r := bits mod 128).
  assert (0 <= bits) by lia.
  pose proof (Z.div_mod bits 128 ltac:(lia)) as Eb. fold i r in Eb.
  pose proof (Z.mod_pos_bound bits 128 ltac:(lia)) as Hr. fold r in Hr.
  assert (0 <= i) as Hi by (apply Z.div_pos; lia).
  assert (i < len l) as Hil by (unfold nbits, nlimbs in Hcp; unfold len; lia).
  rewrite get_ret by lia. cbn [bind]. rewrite shr128_ret by lia. cbn [bind].
  assert (Z.shiftr LIMB_MAX (128 - 1 - r) = 2 ^ (r + 1) - 1) as ->.
  { rewrite Z.shiftr_div_pow2 by lia. symmetry. apply Z.div_unique with (2 ^ (127 - r) - 1).
    - left. replace (128 - 1 - r) with (127 - r) by lia. pose proof (Z.pow_pos_nonneg 2 (127 - r) ltac:(lia) ltac:(lia)). lia.
    - replace (128 - 1 - r) with (127 - r) by lia. unfold LIMB_MAX, LIMB_MOD.
      assert (2 ^ 128 = 2 ^ (127 - r) * 2 ^ (r + 1)) as -> by (rewrite <- Z.pow_add_r by lia; f_equal; lia). ring. }
  rewrite land_ones_mod by lia. set (limb := nth (Z.to_nat i) l 0 mod 2 ^ (r + 1)).
  set (q := 2 ^ (128 * i)).
  assert (0 < q) as Hq by (apply Z.pow_pos_nonneg; lia).
  assert (Ew : w = lval (firstn (Z.to_nat i) l) + q * limb).
  { unfold w, limb. rewrite lval_firstn_mod by (try assumption; unfold len in Hil; lia). rewrite Z2Nat.id by lia. fold q.
    replace (bits + 1) with (128 * i + (r + 1)) by lia. rewrite Z.pow_add_r by lia. fold q.
    rewrite Z.rem_mul_r by (try apply Z.pow_nonzero; try lia; apply Z.pow_pos_nonneg; lia). f_equal. f_equal.
    rewrite (lval_nth l (Z.to_nat i)) by assumption. rewrite Z2Nat.id by lia. fold q.
    assert (2 ^ 128 = 2 ^ (127 - r) * 2 ^ (r + 1)) as -> by (rewrite <- Z.pow_add_r by lia; f_equal; lia).
    rewrite (Z.mul_comm (2 ^ (127 - r))), Z.rem_mul_r by (try apply Z.pow_nonzero; try lia; apply Z.pow_pos_nonneg; lia).
    rewrite Z.mul_comm, Z.mod_add by (apply Z.pow_nonzero; lia). rewrite Z.mod_mod by (apply Z.pow_nonzero; lia). reflexivity. }
  clearbody w. set (low := lval (firstn (Z.to_nat i) l)) in *.
  assert (0 <= limb < 2 ^ (r + 1)) as Hlimb by (apply Z.mod_pos_bound, Z.pow_pos_nonneg; lia). clearbody limb.
  set (b := if nearest m then 2 ^ r else 0).
  assert ((match m with NearestTiesToEven | NearestTiesToAway => shl128 1 r | _ => Ret 0 end) = Ret b) as ->.
  { unfold b. destruct m; cbn [nearest]; rewrite ?shl128_1 by lia; reflexivity. }
  cbn [bind].
  assert (2 ^ bits = q * 2 ^ r) as -> by (unfold q; rewrite <- Z.pow_add_r by lia; f_equal; lia).
  assert (2 ^ (bits + 1) = q * 2 ^ (r + 1)) as -> by (unfold q; rewrite <- Z.pow_add_r by lia; f_equal; lia).
  assert (0 < 2 ^ r) by (apply Z.pow_pos_nonneg; lia).
  assert (2 ^ (r + 1) = 2 * 2 ^ r) as E2 by (rewrite Z.pow_add_r by lia; lia).
  assert (2 ^ r <= 2 ^ 127) as Hr2 by (apply Z.pow_le_mono_r; lia).
  assert (Hmax : LIMB_MAX = 2 ^ 128 - 1) by reflexivity.
  destruct (Z.eqb_spec i 0) as [I0|I0].
  - assert (low = 0) as L0 by (unfold low; rewrite I0; reflexivity).
    assert (q = 1) as Q1 by (unfold q; rewrite I0; reflexivity). rewrite L0, Q1, !Z.mul_1_l, Z.add_0_l in *. clear Eb. subst w.
    clearbody q low. 
    set (t := wrap128 (limb - b)).
    pose proof (wrap128_limb (limb - b)) as W1. pose proof (wrap128_limb (- t)) as W2. fold t in W1. unfold SpecSig.limb in W1, W2.
    assert (0 <= b <= 2 ^ r) as Hb by (unfold b; destruct (nearest m); lia).
    eexists. split; [reflexivity|]. split; [lia|].
    assert (Hm : Z.min t (wrap128 (- t)) <= Z.abs (limb - b)).
    { destruct (Z_lt_le_dec limb b) as [L|L].
      - apply Z.le_trans with (1 := Z.le_min_r _ _). 
        assert (t = limb - b + 2 ^ 128) as Et.
        { unfold t, wrap128, LIMB_MOD. symmetry. apply Z.mod_unique with (-1); lia. }
        unfold wrap128, LIMB_MOD. rewrite <- (Z.mod_unique (- t) (2 ^ 128) (-1) (b - limb)) by lia. lia.
      - apply Z.le_trans with (1 := Z.le_min_l _ _). unfold t. rewrite wrap128_id by (unfold SpecSig.limb; lia). lia. }
    unfold b in *. destruct (nearest m).
    + split; [intros _; exact Hm|]. split; [discriminate|]. intro. exfalso. lia.
    + split; [discriminate|]. split; [intros _; lia|]. intro. exfalso. lia.
  - assert (exists i', i = i' + 1 /\ 0 <= i') as [i' [Ei Hi']] by (exists (i - 1); lia).
    rewrite slice_to_ret by lia. cbn [bind].
    assert (len (firstn (Z.to_nat i) l) = i) as Lf by (unfold len; rewrite firstn_length; unfold len in Hil; lia).
    rewrite slice_from_ret by lia. cbn [bind]. rewrite get_ret by lia. cbn [bind].
    change (Z.to_nat 1) with 1%nat. change (Z.to_nat 0) with 0%nat.
    assert (exists s0 mid, firstn (Z.to_nat i) l = s0 :: mid /\ nth 0 l 0 = s0) as [s0 [mid [Ef Es]]].
    { destruct l as [|a l']; [unfold len in Hil; cbn in Hil; lia|]. exists a, (firstn (Z.to_nat i') l').
      replace (Z.to_nat i) with (Datatypes.S (Z.to_nat i')) by lia. split; reflexivity. }
    rewrite Ef, Es. cbn [skipn].
    pose proof (limbs_firstn (Z.to_nat i) l Hl) as Lm. rewrite Ef in Lm, Lf.
    pose proof (Forall_inv Lm) as Hs0. pose proof (Forall_inv_tail Lm) as Hmid. unfold SpecSig.limb in Hs0.
    assert (low = s0 + 2 ^ 128 * lval mid) as El by (unfold low; rewrite Ef; reflexivity). clearbody low.
    assert (nbits mid = 128 * i') as Nm by (unfold nbits, nlimbs; unfold len in Lf; cbn [length] in Lf; lia).
    set (qm := 2 ^ nbits mid) in *.
    assert (q = 2 ^ 128 * qm) as Eq by (unfold q, qm; rewrite Nm, <- Z.pow_add_r by lia; f_equal; lia).
    assert (0 < qm) as Hqm by (apply Z.pow_pos_nonneg; lia).
    pose proof (lval_bound mid Hmid) as Bm. fold qm in Bm.
    assert (Eqb : q * b = if nearest m then q * 2 ^ r else 0) by (unfold b; destruct (nearest m); lia).
    assert (Hb : 0 <= b <= 2 ^ r) by (unfold b; destruct (nearest m); lia).
    assert (Hbn : nearest m = true -> b = 2 ^ r) by (unfold b; intros ->; reflexivity).
    assert (Hbd : nearest m = false -> b = 0) by (unfold b; intros ->; reflexivity).
    assert (Dist : w - q * b = low + q * (limb - b)) by lia.
    assert (Low : 0 <= low < q) by nia.
    (* far from the boundary *)
    assert (Far : forall U, U = LIMB_MAX -> (2 ^ 128 - 1 <= Z.abs (w - q * b)) ->
      0 <= U <= LIMB_MAX /\ (nearest m = true -> U <= Z.abs (w - q * 2 ^ r)) /\ (nearest m = false -> U <= w) /\
      ((if nearest m then 2 ^ 139 <= Z.abs (w - q * 2 ^ r) else 2 ^ 139 <= w /\ w + 2 ^ 139 <= q * 2 ^ (r + 1)) -> U = LIMB_MAX)).
    { intros U -> D. split; [lia|]. split; [intro N; rewrite <- (Hbn N); lia|]. split; [|intros _; reflexivity].
      intro N. rewrite (Hbd N) in D. assert (0 <= w) by nia. lia. }
    destruct (Z.eqb_spec limb b) as [Lb|Lb].
    + rewrite Lb, Z.sub_diag, Z.mul_0_r, Z.add_0_r in Dist.
      destruct (is_all_zeros mid) eqn:Ez; cbn [negb].
      * rewrite is_all_zeros_spec in Ez by assumption. apply Z.eqb_eq in Ez. rewrite Ez, Z.mul_0_r, Z.add_0_r in El.
        exists s0. split; [reflexivity|]. split; [lia|]. split; [intro N; rewrite <- (Hbn N); lia|].
        split; [intro N; rewrite (Hbd N) in Dist; lia|]. intro F. exfalso. destruct (nearest m) eqn:N.
        -- rewrite <- (Hbn eq_refl) in F. lia.
        -- rewrite (Hbd eq_refl) in Dist. lia.
      * eexists. split; [reflexivity|]. apply Far; [reflexivity|].
        rewrite is_all_zeros_spec in Ez by assumption. apply Z.eqb_neq in Ez. lia.
    + destruct (Z.eqb_spec limb (wrap128 (b - 1))) as [Lc|Lc].
      * destruct (nearest m) eqn:N.
        -- rewrite (Hbn eq_refl) in Lc. rewrite wrap128_id in Lc by (unfold SpecSig.limb; lia).
           assert (w - q * b = low - q) as D2 by (rewrite Dist, (Hbn eq_refl), Lc; ring).
           destruct (existsb _ mid) eqn:Ex.
           ++ apply not_all_max in Ex; [|assumption]. fold qm in Ex. eexists. split; [reflexivity|]. apply Far; [reflexivity|].
              rewrite D2. nia.
           ++ apply all_max in Ex; [|assumption]. fold qm in Ex.
              assert (q - low = 2 ^ 128 - s0) as D3 by (rewrite El, Eq, Ex; ring).
              eexists. split; [reflexivity|]. rewrite <- (Hbn eq_refl).
              assert (0 <= wrap128 (- s0) <= 2 ^ 128 - s0).
              { unfold wrap128, LIMB_MOD. destruct (Z.eq_dec s0 0) as [->|]; [vm_compute; split; discriminate|].
                rewrite <- (Z.mod_unique (- s0) (2 ^ 128) (-1) (2 ^ 128 - s0)) by lia. lia. }
              pose proof (wrap128_limb (- s0)) as W. unfold SpecSig.limb in W.
              split; [lia|]. split; [intros _; lia|]. split; [discriminate|]. intro. exfalso. lia.
        -- rewrite (Hbd eq_refl) in *. change (wrap128 (0 - 1)) with (2 ^ 128 - 1) in Lc.
           assert (r = 127) as R127.
           { destruct (Z.eq_dec r 127); [assumption|]. assert (2 ^ (r + 1) <= 2 ^ 127) by (apply Z.pow_le_mono_r; lia). lia. }
           destruct (existsb _ mid) eqn:Ex.
           ++ eexists. split; [reflexivity|]. apply Far; [reflexivity|]. nia.
           ++ apply all_max in Ex; [|assumption]. fold qm in Ex.
              assert (q - low = 2 ^ 128 - s0) as D3 by (rewrite El, Eq, Ex; ring).
              pose proof (wrap128_limb (- s0)) as W. unfold SpecSig.limb in W.
              eexists. split; [reflexivity|]. split; [lia|]. split; [discriminate|]. split; [intros _; nia|].
              intros [_ F]. exfalso. rewrite E2, R127 in F. nia.
      * eexists. split; [reflexivity|]. apply Far; [reflexivity|]. rewrite Dist.
        destruct (nearest m) eqn:N.
        -- rewrite wrap128_id in Lc by (unfold SpecSig.limb; rewrite (Hbn eq_refl) in *; lia). nia.
        -- rewrite (Hbd eq_refl) in *. nia.
Qed.
