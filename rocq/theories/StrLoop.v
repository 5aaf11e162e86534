(** * StrLoop.v -- the attempts with growing precision *)
From Coq Require Import ZArith Reals List Bool Lia Lra ZifyBool.
From Flocq Require Import Core Bracket Round.
From Verif Require Import Machine Sig SpecSig Limbs SigProofs SigProofs2 SigProofs3 SigProofs4 Ieee Spec Norm Arith Parse SpecStr StrHex StrNum StrAtt StrCell StrErr StrDec.
Import ListNotations.
Local Open Scope Z_scope.
Ltac Zify.zify_post_hook ::= idtac.
Local Notation length := List.length.

Lemma dec_attempts_eq : forall fuel S attempt dec_sig pow5 dec_exp round sig_calc pow5_calc sig_scratch,
  dec_attempts (Datatypes.S fuel) S attempt dec_sig pow5 dec_exp round sig_calc pow5_calc sig_scratch =
  let cp := Z.shiftl LIMB_BITS attempt - 1 in
  let! '(sig_calc, status, exp) := calc_normal_from_limbs cp sig_calc dec_sig in
  let! '(pow5_calc, pow5_status, pow5_exp) := calc_normal_from_limbs cp pow5_calc pow5 in
  let! exp := chk32 (exp + dec_exp) in
  let! tb := usub cp (PRECISION S) in
  if 0 <=? dec_exp then
    let! exp := chk32 (exp + pow5_exp) in
    let! '(sc, exp, loss) := Sig.mul (resize sig_scratch (len sig_calc + len pow5_calc)) exp sig_calc pow5_calc cp in
    judge S round cp sc exp (PRECISION S) tb (b2z (negb (status =? OK))) (b2z (negb (pow5_status =? OK))) loss
      (dec_attempts fuel S (attempt + 1) dec_sig pow5 dec_exp round sc pow5_calc sig_calc)
  else
    let! exp := chk32 (exp - pow5_exp) in
    let! '(q, exp, loss) := Sig.div (resize sig_scratch (len sig_calc)) exp sig_calc pow5_calc cp in
    let! '(used, tb) :=
      (if exp <? MIN_EXP S then
         let! d := chk32 (MIN_EXP S - exp) in
         Ret (saturating_usub cp (tb + d), tb + d)
       else Ret (PRECISION S, tb)) in
    judge S round cp q exp used tb (b2z (negb (status =? OK)))
      (2 * b2z (negb (pow5_status =? OK) || negb (loss_eqb loss ExactlyZero))) loss
      (dec_attempts fuel S (attempt + 1) dec_sig pow5 dec_exp round q pow5_calc sig_calc).
Proof.
  intros. cbn [dec_attempts]. cbv zeta.
  destruct (calc_normal_from_limbs _ sig_calc dec_sig) as [[[? ?] ?]| |]; cbn [bind]; try reflexivity.
  destruct (calc_normal_from_limbs _ pow5_calc pow5) as [[[? ?] ?]| |]; cbn [bind]; try reflexivity.
  destruct (chk32 _); cbn [bind]; try reflexivity.
  destruct (usub _ _); cbn [bind]; try reflexivity.
  destruct (0 <=? dec_exp).
  - destruct (chk32 _); cbn [bind]; try reflexivity.
    destruct (Sig.mul _ _ _ _ _) as [[[? ?] ?]| |]; cbn [bind]; reflexivity.
  - destruct (chk32 _); cbn [bind]; try reflexivity.
    destruct (Sig.div _ _ _ _ _) as [[[? ?] ?]| |]; cbn [bind]; try reflexivity.
    destruct (_ <? MIN_EXP S); cbn [bind]; try reflexivity.
    destruct (chk32 _); cbn [bind]; reflexivity.
Qed.

(** ** Powers of ten *)
Lemma bpow10 : forall k, bpow r10 k = (bpow r2 k * (if 0 <=? k then IZR (5 ^ k) else / IZR (5 ^ (- k))))%R.
Proof.
  assert (P : forall k, 0 <= k -> bpow r10 k = (bpow r2 k * IZR (5 ^ k))%R).
  { intros k Hk. rewrite <- !IZR_Zpower by assumption. rewrite <- mult_IZR. f_equal. change (Zpower r10 k) with (10 ^ k). change (Zpower r2 k) with (2 ^ k).
    rewrite <- Z.pow_mul_l. reflexivity. }
  intro k. destruct (Z.leb_spec 0 k) as [L|L]; [apply P; assumption|].
  replace k with (- (- k)) at 1 by lia. rewrite bpow_opp, P by lia. rewrite Rinv_mult.
  f_equal. rewrite <- bpow_opp. f_equal. lia.
Qed.

Lemma exact_shift : forall cp n a e, 0 < cp -> (IZR a * bpow r2 (e - (cp - 1)) = IZR n)%R -> e <= cp - 1 -> a = n * 2 ^ (cp - 1 - e).
Proof.
  intros cp n a e Hcp E He. apply eq_IZR. rewrite mult_IZR, IZR_pow2 by lia. rewrite <- E, Rmult_assoc, <- bpow_plus.
  replace (_ + _) with 0 by lia. cbn [bpow]. ring.
Qed.

(** ** One attempt *)
Lemma bitlen_mul : forall n q, 0 < n -> 0 < q -> bitlen (n * q) <= bitlen n + bitlen q.
Proof.
  intros n q Hn Hq. pose proof (bitlen_spec n Hn). pose proof (bitlen_spec q Hq). pose proof (bitlen_nonneg n). pose proof (bitlen_nonneg q).
  apply bitlen_le; [nia|lia|]. rewrite Z.pow_add_r by lia. apply Z.mul_lt_mono_nonneg; lia.
Qed.
Lemma resize_limbs : forall l n, limbs l -> 0 <= n -> limbs (resize l n).
Proof. intros l n H1 H2. apply resize_spec; assumption. Qed.
Lemma nbits_len : forall l, nbits l = 128 * len l.
Proof. reflexivity. Qed.

(** the precision reached by an attempt that was rejected was still small *)
Definition small_enough (S : Semantics) (n q cp : Z) : Prop := cp < bitlen n + bitlen q + PRECISION S + 142.

Lemma attempt_spec : forall S m fuel attempt dec_sig pow5 dec sig_calc pow5_calc sig_scratch n q nl x,
  sem_ok S -> PRECISION S <= 123 -> limbs dec_sig -> limbs pow5 -> limbs sig_calc -> limbs pow5_calc -> limbs sig_scratch ->
  nbits dec_sig <= 2 ^ 30 -> nbits pow5 <= 2 ^ 30 -> lval dec_sig = n -> lval pow5 = q -> 0 < n -> q = 5 ^ Z.abs dec ->
  bitlen n <= 2 ^ 28 -> bitlen q <= 2 ^ 28 -> Z.abs dec <= 2 ^ 28 ->
  Z.shiftl LIMB_BITS attempt = 128 * nl -> 1 <= nl -> 128 * nl <= 2 ^ 29 ->
  x = (IZR n * bpow r10 dec)%R ->
  let go := dec_attempts (Datatypes.S fuel) S attempt dec_sig pow5 dec m sig_calc pow5_calc sig_scratch in
  (exists res, go = Ret res /\ delivered S m x (bitlen n <= 127 /\ bitlen q <= 127) res) \/
  (exists a b c, limbs a /\ limbs b /\ limbs c /\ go = dec_attempts fuel S (attempt + 1) dec_sig pow5 dec m a b c /\
     small_enough S n q (128 * nl - 1)).
Proof.
  intros S m fuel attempt dec_sig pow5 dec sig_calc pow5_calc sig_scratch n q nl x HS Hp Hds Hp5 Hsc Hpc Hss Nds Np5 En Eq Hn Eq5 Bn Bq Hd Ecp Hnl Hcp Ex go.
  unfold go. rewrite dec_attempts_eq. cbv zeta. rewrite Ecp. set (cp := 128 * nl - 1). 
  pose proof (ok_prec S HS) as Pp. pose proof (ok_min S HS) as Pm. pose proof (ok_max S HS) as PM.
  assert (0 < q) as Hq by (rewrite Eq5; apply Z.pow_pos_nonneg; lia).
  destruct (calc_normal_spec cp nl sig_calc dec_sig) as [a [st1 [e1 [A1 [A2 [A3 [A4 [A5 [A6 A7]]]]]]]]]; try assumption; try (unfold cp; lia).
  rewrite A1. cbn [bind]. rewrite En in *. clear A1.
  destruct (calc_normal_spec cp nl pow5_calc pow5) as [b [st2 [e2 [B1 [B2 [B3 [B4 [B5 [B6 B7]]]]]]]]]; try assumption; try (unfold cp; lia).
  rewrite B1. cbn [bind]. rewrite Eq in *. clear B1.
  destruct (near_err cp (IZR n) (lval a) (e1 - (cp - 1)) ltac:(unfold cp; lia) A4 A6) as [th1 [T1 [T2 T3]]].
  destruct (near_err cp (IZR q) (lval b) (e2 - (cp - 1)) ltac:(unfold cp; lia) B4 B6) as [th2 [T4 [T5 T6]]].
  assert (Hcp' : 127 <= cp <= 2 ^ 29) by (unfold cp; lia).
  assert (Ncp : 128 * nl = cp + 1) by (unfold cp; lia). clearbody cp.
  assert (I1 : b2z (negb (st1 =? OK)) = 0 /\ th1 = 0%R \/ b2z (negb (st1 =? OK)) = 1).
  { destruct A7 as [[-> Q]|[-> Q]]; [left; split; [reflexivity|apply T3, Q]|right; reflexivity]. }
  assert (I1' : bitlen n <= cp -> b2z (negb (st1 =? OK)) = 0 /\ th1 = 0%R /\ near cp (IZR n) = IZR n).
  { intro L. destruct A7 as [[-> Q]|[-> Q]]; [split; [reflexivity|split; [apply T3, Q|exact Q]]|lia]. }
  assert (I2 : b2z (negb (st2 =? OK)) = 0 /\ th2 = 0%R \/ b2z (negb (st2 =? OK)) = 1).
  { destruct B7 as [[-> Q]|[-> Q]]; [left; split; [reflexivity|apply T6, Q]|right; reflexivity]. }
  assert (I2' : bitlen q <= cp -> negb (st2 =? OK) = false /\ th2 = 0%R /\ near cp (IZR q) = IZR q).
  { intro L. destruct B7 as [[-> Q]|[-> Q]]; [split; [reflexivity|split; [apply T6, Q|exact Q]]|lia]. }
  assert (J2 : negb (st2 =? OK) = false -> th2 = 0%R).
  { intro L. destruct B7 as [[-> Q]|[-> Q]]; [apply T6, Q|discriminate L]. }
  assert (R1 : 0 <= b2z (negb (st1 =? OK)) <= 1) by (destruct (st1 =? OK); cbn; lia).
  set (i1 := b2z (negb (st1 =? OK))) in *. clearbody i1. set (j2 := negb (st2 =? OK)) in *. clearbody j2. clear A7 B7 T3 T6 st1 st2.
  pose proof (bitlen_nonneg n) as Bn0. pose proof (bitlen_nonneg q) as Bq0.
  assert (0 < bitlen n) as Bn1 by (rewrite bitlen_pos by lia; pose proof (Z.log2_nonneg n); lia).
  assert (0 < bitlen q) as Bq1 by (rewrite bitlen_pos by lia; pose proof (Z.log2_nonneg q); lia).
  assert (Qp : (0 < IZR q)%R) by (apply IZR_lt; assumption).
  assert (Xp : (0 < x)%R) by (rewrite Ex; apply Rmult_lt_0_compat; [apply IZR_lt; assumption|apply bpow_gt_0]).
  rewrite chk32_ret by lia. cbn [bind]. rewrite usub_ret by lia. cbn [bind].
  rewrite bpow10 in Ex.
  assert (Nlen : len a = nl /\ len b = nl) by (rewrite nbits_len in A3, B3; lia). destruct Nlen as [La Lb].
  destruct (Z.leb_spec 0 dec) as [Hdec|Hdec].
  - (* multiply *)
    rewrite chk32_ret by lia. cbn [bind].
    replace (5 ^ dec) with q in Ex by (rewrite Eq5; f_equal; lia).
    set (dst := resize sig_scratch (len a + len b)).
    destruct (mul_bounded cp (lval a) (lval b) th1 th2 i1 (b2z j2) ltac:(lia) A4 B4 T1 T4 I1 I2) as [Hsh [HV HB]].
    set (sh := bitlen (lval a * lval b) - cp) in *.
    destruct (mul_spec dst (e1 + dec + e2) a b cp) as [d [D1 [D2 [D3 D4]]]]; try assumption; try lia.
    { apply resize_limbs; [assumption|lia]. }
    { unfold dst, resize. rewrite app_length, firstn_length, repeat_length. unfold len in La, Lb |- *. lia. }
    { unfold dst. rewrite len_of_resize by lia. lia. }
    fold sh in D1, D4. replace (Z.max 0 sh) with sh in D1, D4 by lia.
    rewrite D1. cbn [bind]. clear D1.
    set (e := e1 + dec + e2 + 1 - cp + sh) in *.
    set (l := loss_of ((lval a * lval b) mod 2 ^ sh) (2 ^ sh)) in *.
    rewrite <- D4 in HB, HV.
    assert (cp - 1 <= sh) as Hsh1.
    { unfold sh. assert (2 * cp - 1 <= bitlen (lval a * lval b)); [|lia].
      destruct (Z_le_gt_dec (2 * cp - 1) (bitlen (lval a * lval b))) as [L|L]; [assumption|]. exfalso.
      assert (0 < 2 ^ (cp - 1)) by (apply Z.pow_pos_nonneg; lia).
      assert (lval a * lval b < 2 ^ (2 * cp - 2)) by (apply bitlen_le; [nia|lia|lia]).
      replace (2 * cp - 2) with (cp - 1 + (cp - 1)) in H0 by lia. rewrite Z.pow_add_r in H0 by lia. nia. }
    assert (Esc : scaled cp e x = ((IZR (lval a) + th1) * (IZR (lval b) + th2) / IZR (2 ^ sh))%R).
    { unfold scaled. rewrite Ex. rewrite T2, T5. rewrite IZR_pow2 by lia. unfold Rdiv. rewrite <- bpow_opp.
      replace (- sh) with (e1 - (cp - 1) + dec + (e2 - (cp - 1)) + - (e - (cp - 1))) by (unfold e; lia). rewrite !bpow_plus. ring. }
    assert (Hk : kept S cp e = PRECISION S) by (unfold kept, dropped; lia).
    assert (Hdr : dropped S cp e = cp - PRECISION S) by (unfold dropped; lia).
    rewrite <- Hdr, <- Hk.
    assert (Nd : nbits d = 2 * (cp + 1)).
    { unfold nbits, nlimbs. rewrite D3. unfold dst, resize. rewrite app_length, firstn_length, repeat_length. unfold len in La, Lb |- *. lia. }
    match goal with |- context [judge S m cp d e _ _ _ _ _ ?r] => set (retry := r) end.
    destruct (judge_spec S m cp d e i1 (b2z j2) l retry x (bitlen n <= 127 /\ bitlen q <= 127)) as [J|[J1 [J2' J3]]]; try assumption; try lia.
    + rewrite Esc. exact HB.
    + intros [L1 L2]. destruct (I1' ltac:(lia)) as [_ [-> _]]. destruct (I2' ltac:(lia)) as [_ [-> _]]. rewrite Esc, D4, !Rplus_0_r, <- mult_IZR.
      destruct (floor_frac (lval a * lval b) (2 ^ sh) ltac:(apply Z.pow_pos_nonneg; lia)) as [r [Hr [Er _]]]. rewrite Er. lra.
    + left. exact J.
    + right. exists d, b, a. split; [assumption|]. split; [assumption|]. split; [assumption|]. split; [rewrite J1; reflexivity|].
      unfold small_enough. apply Z.nle_gt. intro Big. destruct (I1' ltac:(lia)) as [Z1 [_ X1]]. destruct (I2' ltac:(lia)) as [Z2 [_ X2]].
      apply J2'. rewrite Z1, Z2. unfold half_ulps. cbn [b2z Z.add Z.eqb].
      assert (l = ExactlyZero) as ->; [|reflexivity]. apply loss_zero; [apply Z.pow_pos_nonneg; lia|].
      rewrite X1 in A6. rewrite X2 in B6. apply exact_shift in A6; [|lia|lia]. apply exact_shift in B6; [|lia|lia].
      assert (Ep : lval a * lval b = n * q * 2 ^ (cp - 1 - e1 + (cp - 1 - e2))) by (rewrite A6, B6, Z.pow_add_r by lia; ring).
      pose proof (bitlen_mul n q Hn Hq) as Bnq. assert (Hnq : 0 < n * q) by (apply Z.mul_pos_pos; assumption).
      assert (sh <= cp - 1 - e1 + (cp - 1 - e2)) as Hs2 by (unfold sh; rewrite Ep, bitlen_shiftl by lia; lia).
      rewrite Ep. replace (cp - 1 - e1 + (cp - 1 - e2)) with (cp - 1 - e1 + (cp - 1 - e2) - sh + sh) by lia. rewrite Z.pow_add_r, Z.mul_assoc by lia.
      apply Z.mod_mul. apply Z.pow_nonzero; lia.
  - (* divide *)
    rewrite chk32_ret by lia. cbn [bind].
    replace (5 ^ (- dec)) with q in Ex by (rewrite Eq5; f_equal; lia).
    set (dst := resize sig_scratch (len a)).
    assert (Ldst : length dst = length a).
    { unfold dst, resize. rewrite app_length, firstn_length, repeat_length. unfold len. lia. }
    assert (P0 : 0 < 2 ^ (cp - 1)) by (apply Z.pow_pos_nonneg; lia).
    destruct (div_spec dst (e1 + dec - e2) a b cp) as [d [s [Hs [D1 [D2 [D3 [D4 D5]]]]]]]; try assumption; try lia.
    { apply resize_limbs; [assumption|lia]. }
    { unfold len in La, Lb. lia. }
    rewrite D1. cbn [bind]. clear D1.
    set (e := e1 + dec - e2 + (cp - 1) - s) in *.
    set (l := loss_of ((lval a * 2 ^ s) mod lval b) (lval b)) in *.
    assert (s <= cp) as Hs2.
    { destruct (Z_le_gt_dec s cp) as [L|L]; [assumption|]. exfalso.
      assert (2 ^ (cp + 1) <= 2 ^ s) by (apply Z.pow_le_mono_r; lia). assert (2 ^ (cp + 1) = 4 * 2 ^ (cp - 1)) by (replace (cp + 1) with (2 + (cp - 1)) by lia; rewrite Z.pow_add_r by lia; reflexivity).
      assert (2 ^ cp = 2 * 2 ^ (cp - 1)) by (rewrite <- Z.pow_succ_r by lia; f_equal; lia).
      assert (2 ^ cp <= lval a * 2 ^ s / lval b); [|lia]. apply Z.div_le_lower_bound; [lia|]. nia. }
    pose proof (div_bounded cp (lval a) (lval b) s th1 th2 i1 j2 ltac:(lia) A4 B4 Hs ltac:(rewrite <- D4; apply D5) T1 T4 I1 J2) as HB. cbv zeta in HB. fold l in HB.
    rewrite <- D4 in HB.
    assert (Bp : (0 < IZR (lval b) + th2)%R).
    { apply Rabs_le_inv in T4. assert (1 <= IZR (lval b))%R by (apply IZR_le; lia). lra. }
    assert (Esc : scaled cp e x = ((IZR (lval a) + th1) * IZR (2 ^ s) / (IZR (lval b) + th2))%R).
    { unfold scaled. rewrite Ex. rewrite T2, T5. rewrite IZR_pow2 by lia. unfold Rdiv. rewrite Rinv_mult, <- bpow_opp.
      replace s with (e1 - (cp - 1) + dec + - (e2 - (cp - 1)) + - (e - (cp - 1))) by (unfold e; lia). rewrite !bpow_plus. ring. }
    assert (Hjd : (if e <? MIN_EXP S then let! d0 := chk32 (MIN_EXP S - e) in Ret (saturating_usub cp (cp - PRECISION S + d0), cp - PRECISION S + d0)
                   else Ret (PRECISION S, cp - PRECISION S)) = Ret (kept S cp e, dropped S cp e)).
    { destruct (Z.ltb_spec e (MIN_EXP S)) as [L|L].
      - rewrite chk32_ret by (unfold e; lia). cbn [bind]. unfold kept, saturating_usub, dropped. replace (Z.max 0 (MIN_EXP S - e)) with (MIN_EXP S - e) by lia. reflexivity.
      - unfold kept, dropped. f_equal. f_equal; lia. }
    rewrite Hjd. cbn [bind]. clear Hjd.
    match goal with |- context [judge S m cp d e _ _ _ _ _ ?r] => set (retry := r) end.
    set (i2 := 2 * b2z (j2 || negb (loss_eqb l ExactlyZero))) in *.
    assert (Nd : nbits d = cp + 1) by (unfold nbits, nlimbs; rewrite D3; unfold len in La; lia).
    destruct (judge_spec S m cp d e i1 i2 l retry x (bitlen n <= 127 /\ bitlen q <= 127)) as [J|[J1 [J2' J3]]]; try assumption; try lia.
    + unfold i2. destruct (j2 || negb (loss_eqb l ExactlyZero)); cbn; lia.
    + rewrite Esc. exact HB.
    + (* powers of two are never crossed *)
      intros _ j Hj. unfold vhat.
      assert (bpow r2 (j - dec) * IZR q <= IZR n)%R as H1.
      { apply Rmult_le_reg_r with (bpow r2 dec * / IZR q)%R; [apply Rmult_lt_0_compat; [apply bpow_gt_0|apply Rinv_0_lt_compat; assumption]|].
        rewrite <- Ex. replace (bpow r2 (j - dec) * IZR q * (bpow r2 dec * / IZR q))%R with (bpow r2 (j - dec) * bpow r2 dec)%R by (field; lra).
        rewrite <- bpow_plus. replace (j - dec + dec) with j by lia. exact Hj. }
      apply (near_le cp) in H1; [|lia]. rewrite Rmult_comm, near_scale in H1 by lra. rewrite <- A6, <- B6 in H1.
      set (f := e - (cp - 1)) in *.
      destruct (Z_lt_le_dec (j - f) 0) as [L|L].
      * apply Rle_trans with (1 * bpow r2 f)%R; [rewrite Rmult_1_l; apply bpow_le; lia|].
        apply Rmult_le_compat_r; [apply bpow_ge_0|]. apply IZR_le. lia.
      * replace j with (j - f + f) by lia. rewrite bpow_plus. apply Rmult_le_compat_r; [apply bpow_ge_0|].
        rewrite <- IZR_pow2 by lia. apply IZR_le. rewrite D4. apply Z.div_le_lower_bound; [lia|]. apply le_IZR. rewrite !mult_IZR, !IZR_pow2 by lia.
        apply Rmult_le_reg_r with (bpow r2 (e1 - (cp - 1) - s)); [apply bpow_gt_0|].
        replace (IZR (lval a) * bpow r2 s * bpow r2 (e1 - (cp - 1) - s))%R with (IZR (lval a) * bpow r2 (e1 - (cp - 1)))%R.
        2:{ rewrite Rmult_assoc, <- bpow_plus. f_equal. f_equal. lia. }
        apply Rle_trans with (2 := H1). rewrite !Rmult_assoc, <- !bpow_plus. apply Rmult_le_compat_l; [apply IZR_le; lia|]. apply bpow_le. unfold f, e. lia.
    + intros [L1 L2]. destruct (I1' ltac:(lia)) as [_ [-> _]]. destruct (I2' ltac:(lia)) as [_ [-> _]]. rewrite Esc, D4, !Rplus_0_r, <- mult_IZR.
      destruct (floor_frac (lval a * 2 ^ s) (lval b) ltac:(lia)) as [r [Hr [Er _]]]. rewrite Er. lra.
    + left. exact J.
    + right. exists d, b, a. split; [assumption|]. split; [assumption|]. split; [assumption|]. split; [rewrite J1; reflexivity|].
      unfold small_enough. apply Z.nle_gt. intro Big. destruct (I1' ltac:(lia)) as [Z1 [_ X1]]. destruct (I2' ltac:(lia)) as [Z2 [_ X2]].
      rewrite X1 in A6. rewrite X2 in B6. apply exact_shift in A6; [|lia|lia]. apply exact_shift in B6; [|lia|lia].
      destruct (Z.eq_dec ((lval a * 2 ^ s) mod lval b) 0) as [M|M].
      * apply J2'. unfold i2. assert (l = ExactlyZero) as -> by (apply loss_zero; [lia|exact M]). rewrite Z1, Z2. reflexivity.
      * apply J3. rewrite D4. apply (far_quotient m n q cp (lval a) (lval b) (cp - 1 - e1) (cp - 1 - e2) s); try assumption; try lia.
        unfold kept, dropped. lia.
Qed.

Theorem dec_attempts_spec : forall fuel S m attempt dec_sig pow5 dec sig_calc pow5_calc sig_scratch n q x,
  sem_ok S -> PRECISION S <= 123 -> limbs dec_sig -> limbs pow5 -> limbs sig_calc -> limbs pow5_calc -> limbs sig_scratch ->
  nbits dec_sig <= 2 ^ 30 -> nbits pow5 <= 2 ^ 30 -> lval dec_sig = n -> lval pow5 = q -> 0 < n -> q = 5 ^ Z.abs dec ->
  bitlen n + bitlen q + PRECISION S + 142 <= 2 ^ 28 -> Z.abs dec <= 2 ^ 28 ->
  0 <= attempt -> 128 * 2 ^ attempt <= 2 ^ 29 -> 24 <= attempt + Z.of_nat fuel ->
  x = (IZR n * bpow r10 dec)%R ->
  exists res, dec_attempts fuel S attempt dec_sig pow5 dec m sig_calc pow5_calc sig_scratch = Ret res /\
    delivered S m x (bitlen n <= 127 /\ bitlen q <= 127) res.
Proof.
  induction fuel as [|fuel IH]; intros S m attempt dec_sig pow5 dec sig_calc pow5_calc sig_scratch n q x HS Hp Hds Hp5 Hsc Hpc Hss Nds Np5 En Eq Hn Eq5 HK Hd Ha Hcp Hf Ex.
  - exfalso. assert (2 ^ 24 <= 2 ^ attempt) by (apply Z.pow_le_mono_r; lia). lia.
  - pose proof (bitlen_nonneg n). pose proof (bitlen_nonneg q). pose proof (ok_prec S HS).
    destruct (attempt_spec S m fuel attempt dec_sig pow5 dec sig_calc pow5_calc sig_scratch n q (2 ^ attempt) x) as [R|[a [b [c [Ha' [Hb' [Hc' [E Sm]]]]]]]]; try assumption; try lia.
    + rewrite Z.shiftl_mul_pow2 by lia. reflexivity.
    + rewrite E. apply (IH S m (attempt + 1) dec_sig pow5 dec a b c n q x); try assumption; try lia.
      rewrite Z.pow_add_r, Z.pow_1_r by lia. unfold small_enough in Sm. lia.
Qed.
