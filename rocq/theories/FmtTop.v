(** * FmtTop.v -- Display: the printed text *)
From Coq Require Import ZArith Reals List Bool Lia Lra ZifyBool String.
From Flocq Require Import Core.
From Verif Require Import Machine Sig SpecSig Limbs SigProofs SigProofs2 SigProofs3 SigProofs4 Ieee Spec Formats Norm Arith Int Integral Algebra
  Parse SpecStr StrHex StrScan StrNum StrLoop StrDecimal StrCell StrTop Fmt FmtNum SpecFmt.
Import ListNotations.
Local Open Scope Z_scope.
Ltac Zify.zify_post_hook ::= idtac.
Local Notation length := List.length.

(** ** From the value to an integer times a power of ten *)
Definition scaled_sig (S : Semantics) (x : Float) : outcome (list Z * Z) :=
  let! e := chk32 (exp x - (PRECISION S - 1)) in
  let tz := trailing_zeros128 (sig x) in
  let! '(sg, e, _) := shift_right [sig x] e tz in
  (if e =? 0 then Ret (sg, e)
   else if 0 <? e then
     let sg := resize sg (limbs_for_bits (PRECISION S + e)) in
     shift_left sg e e
   else
     let! texp := chk32 (- e) in
     let! sg := fmt_pow5_loop 64 texp sg [] [] [] in
     Ret (sg, e)).
Lemma lval_zeros : forall n, lval (repeat 0 n) = 0.
Proof. induction n as [|n IH]; cbn [repeat lval]; [reflexivity|rewrite IH; reflexivity]. Qed.
Lemma resize_up : forall l n, limbs l -> Z.of_nat (length l) <= n ->
  limbs (resize l n) /\ Z.of_nat (length (resize l n)) = n /\ lval (resize l n) = lval l.
Proof.
  intros l n Hl Hn. destruct (resize_spec l n Hl ltac:(lia)) as [A B]. split; [exact A|]. split; [exact B|].
  unfold resize. rewrite firstn_all2 by lia. rewrite lval_app, lval_zeros. ring.
Qed.
Lemma limb_tz : forall m, 0 < m -> exists a, m = (2 * a + 1) * 2 ^ trailing_zeros128 m /\ 0 <= a /\ 0 <= trailing_zeros128 m.
Proof.
  intros [|p|p] H; try lia. destruct (pos_tz_spec p) as [a [A [B C]]]. exists a. cbn [trailing_zeros128]. split; [exact B|]. split; assumption.
Qed.
Theorem scaled_sig_spec : forall S x, sem_ok S -> wf S x -> category x = Normal ->
  exists sg e, scaled_sig S x = Ret (sg, e) /\ limbs sg /\ 0 < lval sg /\ - (2 ^ 20 + 126) <= e <= 0 /\
    128 * Z.of_nat (length sg) <= 2 ^ 23 /\ Rabs (value S x) = (IZR (lval sg) * bpow r10 e)%R /\ (e < 0 -> Z.Odd (lval sg)).
Proof.
  intros S x HS [Hl [Hi Hw]] C. rewrite C in Hw. destruct Hw as [Hs [He Hn]].
  pose proof (ok_prec S HS) as Kp. pose proof (ok_min S HS) as Kmin. pose proof (ok_max S HS) as Kmax.
  set (p := PRECISION S) in *. set (m := sig x) in *.
  destruct (limb_tz m ltac:(lia)) as [a [Ea [Ha Htz]]]. set (tz := trailing_zeros128 m) in *. set (m' := 2 * a + 1) in *.
  assert (P2 : 0 < 2 ^ tz) by (apply Z.pow_pos_nonneg; lia).
  assert (Hp128 : 2 ^ p <= 2 ^ 126) by (apply Z.pow_le_mono_r; lia).
  assert (Htz' : tz < p).
  { destruct (Z_lt_le_dec tz p) as [L|L]; [exact L|exfalso]. assert (2 ^ p <= 2 ^ tz) by (apply Z.pow_le_mono_r; lia). nia. }
  assert (Hm' : 0 < m' /\ m' <= m) by (split; [lia|nia]).
  assert (Vx : Rabs (value S x) = (IZR m' * bpow r2 (exp x - (p - 1) + tz))%R).
  { unfold value. rewrite C. fold p m. rewrite Rabs_mult, (Rabs_pos_eq (bpow _ _)) by apply bpow_ge_0. rewrite <- abs_IZR.
    replace (Z.abs (signed (sign x) m)) with m by (unfold signed; destruct (sign x); lia).
    rewrite bpow_plus. rewrite Ea at 1. rewrite mult_IZR, (IZR_pow2 tz) by lia. ring. }
  unfold scaled_sig. fold p m tz. rewrite chk32_ret by lia. cbn [bind].
  assert (Lm : limbs [m]) by (constructor; [exact Hl|constructor]).
  destruct (shift_right_spec [m] (exp x - (p - 1)) tz Lm ltac:(lia) ltac:(lia)) as [d [E [Bd [Ld Vd]]]]. rewrite E. cbn [bind]. clear E.
  assert (lval d = m') as Vd'.
  { rewrite Vd. cbn [lval]. rewrite Z.mul_0_r, Z.add_0_r. rewrite Ea. apply Z.div_mul. lia. }
  change (length [m]) with 1%nat in Ld. set (e := exp x - (p - 1) + tz) in *.
  destruct (Z.eqb_spec e 0) as [E0|E0].
  - exists d, e. split; [reflexivity|]. split; [exact Bd|]. split; [lia|]. split; [lia|]. split; [rewrite Ld; cbn; lia|].
    split; [|lia]. rewrite Vx, Vd'. rewrite E0. reflexivity.
  - destruct (Z.ltb_spec 0 e) as [Ep|Ep].
    + set (L := limbs_for_bits (p + e)) in *.
      assert (HL : p + e <= 128 * L <= p + e + 127).
      { unfold L, limbs_for_bits, LIMB_BITS. pose proof (Z.div_mod (p + e + 128 - 1) 128 ltac:(lia)). pose proof (Z.mod_pos_bound (p + e + 128 - 1) 128 ltac:(lia)). lia. }
      destruct (resize_up d L Bd ltac:(lia)) as [R1 [R2 R3]].
      assert (Hb : lval (resize d L) * 2 ^ e < 2 ^ nbits (resize d L)).
      { rewrite R3, Vd'. apply Z.lt_le_trans with (2 ^ p * 2 ^ e); [apply Z.mul_lt_mono_pos_r; [apply Z.pow_pos_nonneg; lia|lia]|].
        rewrite <- Z.pow_add_r by lia. apply Z.pow_le_mono_r; [lia|]. unfold nbits, nlimbs. rewrite R2. lia. }
      destruct (shift_left_exact (resize d L) e e R1 ltac:(lia) ltac:(lia) Hb) as [d' [E' [B' [L' V']]]].
      exists d', (e - e). split; [exact E'|]. split; [exact B'|]. rewrite V', R3, Vd'.
      assert (0 < 2 ^ e) by (apply Z.pow_pos_nonneg; lia).
      split; [nia|]. split; [lia|]. split; [rewrite L', R2; lia|].
      split; [|lia]. rewrite Vx, mult_IZR, (IZR_pow2 e) by lia. rewrite Z.sub_diag. cbn [bpow]. ring.
    + rewrite chk32_ret by lia. cbn [bind].
      assert (T : tight d).
      { right. unfold nbits, nlimbs. rewrite Ld. change (128 * Z.of_nat 1 - 128) with 0. rewrite Z.pow_0_r. lia. }
      destruct (fmt_pow5_spec (- e) d m' Bd T ltac:(lia) Vd' ltac:(lia)) as [r [E' [B' [T' V']]]].
      rewrite E'. cbn [bind]. exists r, e. split; [reflexivity|]. split; [exact B'|].
      assert (0 < 5 ^ (- e)) by (apply Z.pow_pos_nonneg; lia).
      split; [rewrite V'; nia|]. split; [lia|]. split.
      * pose proof (scaled_nbits r m' (- e) B' T' ltac:(lia) ltac:(lia) V') as N. unfold nbits, nlimbs in N. lia.
      * split.
        -- rewrite Vx, V', mult_IZR. rewrite (bpow10 e). replace (0 <=? e) with false by lia.
           field. apply Rgt_not_eq. apply IZR_lt. assumption.
        -- intros _. rewrite V'. apply Z.odd_spec. rewrite Z.odd_mul, Z.odd_pow by lia. apply andb_true_intro. split; [|reflexivity].
           apply Z.odd_spec. exists a. reflexivity.
Qed.

(** ** Digits *)
Lemma ten_two : forall a b, 0 <= a -> 0 <= b -> 196 * a <= 59 * b -> 10 ^ a <= 2 ^ b.
Proof.
  intros a b Ha Hb H. destruct (Z_le_gt_dec (10 ^ a) (2 ^ b)) as [L|L]; [exact L|exfalso].
  assert (0 < 2 ^ b) by (apply Z.pow_pos_nonneg; lia).
  assert (X : (2 ^ b) ^ 59 < (10 ^ a) ^ 59) by (apply Z.pow_lt_mono_l; lia).
  rewrite <- !Z.pow_mul_r in X by lia.
  assert (Y : 10 ^ (a * 59) <= 2 ^ (b * 59)).
  { apply Z.le_trans with (2 ^ (a * 196)).
    - rewrite (Z.mul_comm a 59), (Z.mul_comm a 196), !Z.pow_mul_r by lia. apply Z.pow_le_mono_l. split; [lia|vm_compute; discriminate].
    - apply Z.pow_le_mono_r; lia. }
  lia.
Qed.
Lemma keep_enough : forall N b P, 0 < N -> 1 <= P -> b = bitlen N ->
  let r := (P * 196 + 58) / 59 in let D := saturating_usub b r * 59 / 196 in
  0 <= D <= b /\ 0 < N / 10 ^ D /\ (0 < D -> 5 * 10 ^ (P - 1) <= N / 10 ^ D).
Proof.
  intros N b P HN HP Eb r D. pose proof (bitlen_spec N HN) as [B _]. rewrite <- Eb in B. pose proof (bitlen_nonneg N) as B0. rewrite <- Eb in B0.
  pose proof (Z.div_mod (P * 196 + 58) 59 ltac:(lia)) as Dr. pose proof (Z.mod_pos_bound (P * 196 + 58) 59 ltac:(lia)) as Mr. fold r in Dr.
  pose proof (Z.div_mod (saturating_usub b r * 59) 196 ltac:(lia)) as Dd. pose proof (Z.mod_pos_bound (saturating_usub b r * 59) 196 ltac:(lia)) as Md. fold D in Dd.
  assert (S : saturating_usub b r = Z.max 0 (b - r)) by (unfold saturating_usub; lia). rewrite S in *.
  assert (HD : 0 <= D <= b) by lia. split; [exact HD|].
  assert (P10 : 0 < 10 ^ D) by (apply Z.pow_pos_nonneg; lia).
  destruct (Z.eq_dec D 0) as [->|ND]; [rewrite Z.pow_0_r, Z.div_1_r; lia|].
  assert (T1 : 10 ^ D <= 2 ^ (b - r)) by (apply ten_two; lia).
  assert (T2 : 10 ^ P <= 2 ^ r) by (apply ten_two; lia).
  assert (T3 : 10 ^ P = 10 * 10 ^ (P - 1)) by (rewrite <- Z.pow_succ_r by lia; f_equal; lia).
  assert (T4 : 2 ^ r = 2 * 2 ^ (r - 1)) by (rewrite <- Z.pow_succ_r by lia; f_equal; lia).
  assert (0 < 10 ^ (P - 1)) by (apply Z.pow_pos_nonneg; lia).
  assert (M : 2 ^ (r - 1) <= N / 10 ^ D).
  { apply Z.div_le_lower_bound; [exact P10|]. apply Z.le_trans with (2 ^ (b - r) * 2 ^ (r - 1)); [apply Z.mul_le_mono_nonneg_r; [lia|exact T1]|].
    rewrite <- Z.pow_add_r by lia. replace (b - r + (r - 1)) with (b - 1) by lia. lia. }
  lia.
Qed.
Lemma bpow10_1 : forall k, bpow r10 (k + 1) = (10 * bpow r10 k)%R.
Proof. intro k. rewrite bpow_plus. change (bpow r10 1) with 10%R. ring. Qed.
Lemma bpow10_le1 : forall k, 0 <= k -> (1 <= bpow r10 k)%R.
Proof. intros k Hk. rewrite bpow10_pos by assumption. apply IZR_le. assert (0 < 10 ^ k) by (apply Z.pow_pos_nonneg; lia). lia. Qed.
Lemma digit_bounds : forall n W h d r, 0 < W -> n = W * (10 * h + d) + r -> 0 <= r < W -> 0 <= d < 10 ->
  (d < 5 -> h * (10 * W) <= n /\ 2 * (n + 1) <= (2 * h + 1) * (10 * W)) /\
  (5 <= d -> (2 * h + 1) * (10 * W) <= 2 * n /\ n + 1 <= (h + 1) * (10 * W)).
Proof.
  intros n W h d r HW -> Hr Hd. split; intro H.
  - assert (W * d <= W * 4) by (apply Z.mul_le_mono_nonneg_l; lia). assert (0 <= W * d) by (apply Z.mul_nonneg_nonneg; lia). lia.
  - assert (W * d <= W * 9) by (apply Z.mul_le_mono_nonneg_l; lia). assert (W * 5 <= W * d) by (apply Z.mul_le_mono_nonneg_l; lia). lia.
Qed.
Lemma scale_le : forall a b c d T, 0 < T -> a * d <= b * c -> a * (T * d) <= b * (c * T).
Proof. intros a b c d T HT H. replace (a * (T * d)) with (a * d * T) by ring. replace (b * (c * T)) with (b * c * T) by ring. apply Z.mul_le_mono_nonneg_r; lia. Qed.
(** the facts about the integers the digits come from *)
Lemma shortened_intro : forall P N e D M n t L h n' k w, 0 < N -> 0 <= D -> 1 <= P -> M = N / 10 ^ D -> (0 < D -> 5 * 10 ^ (P - 1) <= M) ->
  M = n * 10 ^ t -> 0 <= t -> 1 <= L -> 10 ^ (L - 1) <= n < 10 ^ L -> 0 < n' < 10 ^ P -> n' mod 10 <> 0 ->
  (L <= P -> n' = n /\ k = e + D + t) ->
  (P < L -> w = L - P /\ h = n / 10 ^ w /\ e + D + t + w <= k /\
     n' * 10 ^ (k - (e + D + t) - w) = if (n / 10 ^ (w - 1)) mod 10 <? 5 then h else h + 1) ->
  shortened P (IZR N * bpow r10 e) n' k.
Proof.
  intros P N e D M n t L h n' k w HN HD HP EM HM En Ht HL Hn Hn' Hm' C1 C2.
  split; [exact Hn'|exact Hm'|].
  assert (PD : 0 < 10 ^ D) by (apply Z.pow_pos_nonneg; lia). assert (Pt : 0 < 10 ^ t) by (apply Z.pow_pos_nonneg; lia).
  pose proof (Z.div_mod N (10 ^ D) ltac:(lia)) as Dm. rewrite <- EM in Dm. pose proof (Z.mod_pos_bound N (10 ^ D) PD) as Bm.
  set (v := (IZR N * bpow r10 e)%R). set (u := bpow r10 (e + D)). assert (u0 : (0 < u)%R) by apply bpow_gt_0.
  assert (Hu : u = (IZR (10 ^ D) * bpow r10 e)%R) by (unfold u; rewrite Z.add_comm, bpow_plus, bpow10_pos by lia; reflexivity).
  assert (V : (IZR M * u <= v < IZR (M + 1) * u)%R).
  { unfold v. rewrite Hu. pose proof (bpow_gt_0 r10 e) as E0. split.
    - rewrite <- Rmult_assoc, <- mult_IZR. apply Rmult_le_compat_r; [lra|]. apply IZR_le. lia.
    - rewrite <- Rmult_assoc, <- mult_IZR. apply Rmult_lt_compat_r; [exact E0|]. apply IZR_lt. lia. }
  assert (VD : D = 0 -> v = (IZR M * u)%R).
  { intros ->. unfold v, u. rewrite Z.add_0_r. rewrite Z.pow_0_r, Z.div_1_r in EM. rewrite EM. reflexivity. }
  assert (BM : 10 ^ (L - 1) * 10 ^ t <= M /\ M + 1 <= 10 ^ L * 10 ^ t) by (rewrite En; nia).
  rewrite <- !Z.pow_add_r in BM by lia.
  (* the value between powers of ten *)
  assert (R1 : (bpow r10 (L - 1 + t) * u <= v)%R).
  { apply Rle_trans with (2 := proj1 V). apply Rmult_le_compat_r; [lra|]. rewrite bpow10_pos by lia. apply IZR_le. lia. }
  assert (R2 : (v < bpow r10 (L + t) * u)%R).
  { apply Rlt_le_trans with (1 := proj2 V). apply Rmult_le_compat_r; [lra|]. rewrite bpow10_pos by lia. apply IZR_le. lia. }
  assert (LP : last_place P v (e + D + (L + t - P))).
  { unfold last_place. rewrite <- !bpow_plus. replace (P - 1 + (e + D + (L + t - P))) with (L - 1 + t + (e + D)) by lia.
    replace (P + (e + D + (L + t - P))) with (L + t + (e + D)) by lia. rewrite 2(bpow_plus r10 _ (e + D)). fold u. split; assumption. }
  destruct (Z_le_gt_dec L P) as [K|K].
  - destruct (C1 K) as [-> ->]. clear C1 C2.
    assert (Nk : (IZR n * bpow r10 (e + D + t) = IZR M * u)%R).
    { rewrite bpow_plus. fold u. rewrite (bpow10_pos t Ht). rewrite En, mult_IZR. ring. }
    exists (e + D + (L + t - P)). split; [exact LP|]. split; [lia|]. rewrite Nk.
    destruct (Z.eq_dec D 0) as [D0|D0].
    + left. rewrite (VD D0). pose proof (bpow_gt_0 r10 (e + D + (L + t - P))). lra.
    + specialize (HM ltac:(lia)).
      assert (Lt : P <= L + t).
      { destruct (Z_le_gt_dec P (L + t)) as [Y|Y]; [exact Y|exfalso]. assert (10 ^ (L + t) <= 10 ^ (P - 1)) by (apply Z.pow_le_mono_r; lia). lia. }
      rewrite plus_IZR in V.
      destruct (Z.eq_dec (L + t) P) as [Q|Q].
      * right. rewrite Q, Z.sub_diag, Z.add_0_r. fold u. split; [lra|]. apply Rle_trans with (2 := proj1 V). apply Rmult_le_compat_r; [lra|].
        rewrite bpow10_pos by lia. rewrite <- mult_IZR. apply IZR_le. exact HM.
      * left. assert (10 * u <= bpow r10 (e + D + (L + t - P)))%R.
        { unfold u. rewrite <- bpow10_1. apply bpow_le. lia. }
        lra.
  - destruct (C2 ltac:(lia)) as [Ew [Eh [Hk Er]]]. clear C1 C2.
    set (f := k - (e + D + t) - w) in *. assert (Hf : 0 <= f) by lia.
    assert (Pw : 0 < 10 ^ w) by (apply Z.pow_pos_nonneg; lia). assert (Pw1 : 0 < 10 ^ (w - 1)) by (apply Z.pow_pos_nonneg; lia).
    assert (Ew1 : 10 ^ w = 10 * 10 ^ (w - 1)) by (rewrite <- Z.pow_succ_r by lia; f_equal; lia).
    exists (e + D + (L + t - P)). split; [exact LP|]. split; [lia|]. left.
    replace (e + D + (L + t - P)) with (e + D + (t + w)) by lia. set (U := bpow r10 (e + D + (t + w))).
    assert (U0 : (0 < U)%R) by apply bpow_gt_0.
    assert (HU : U = (IZR (10 ^ t * 10 ^ w) * u)%R).
    { unfold U. rewrite bpow_plus. fold u. rewrite <- Z.pow_add_r by lia. rewrite bpow10_pos by lia. ring. }
    assert (Nk : (IZR n' * bpow r10 k = IZR (n' * 10 ^ f) * U)%R).
    { unfold U. replace k with (f + (e + D + (t + w))) by lia. rewrite bpow_plus, (bpow10_pos f Hf), mult_IZR. ring. }
    rewrite Nk, Er. clear Nk Er.
    pose proof (Z.div_mod n (10 ^ w) ltac:(lia)) as Dn. rewrite <- Eh in Dn. pose proof (Z.mod_pos_bound n (10 ^ w) Pw) as Bn.
    assert (Dn1 : n / 10 ^ w = n / 10 ^ (w - 1) / 10) by (rewrite Z.div_div by lia; f_equal; lia). rewrite <- Eh in Dn1.
    pose proof (Z.div_mod (n / 10 ^ (w - 1)) 10 ltac:(lia)) as Dd. rewrite <- Dn1 in Dd.
    pose proof (Z.div_mod n (10 ^ (w - 1)) ltac:(lia)) as Dn'. pose proof (Z.mod_pos_bound n (10 ^ (w - 1)) Pw1) as Bn'.
    set (dg := (n / 10 ^ (w - 1)) mod 10) in *. rewrite Dd in Dn'. clear Dd Dn1 Dn Bn Eh.
    pose proof (Z.mod_pos_bound (n / 10 ^ (w - 1)) 10 ltac:(lia)) as Bd. fold dg in Bd.
    destruct (digit_bounds n (10 ^ (w - 1)) h dg (n mod 10 ^ (w - 1)) Pw1 Dn' Bn' Bd) as [G1 G2]. rewrite <- Ew1 in G1, G2.
    destruct (Z.ltb_spec dg 5) as [G|G].
    + (* rounding down *)
      destruct (G1 G) as [G3 G4]. clear G1 G2.
      assert (A1 : h * (10 ^ t * 10 ^ w) <= M) by (rewrite En; pose proof (scale_le h 1 n (10 ^ w) (10 ^ t) Pt ltac:(lia)); lia).
      assert (A2 : 2 * (M + 1) <= (2 * h + 1) * (10 ^ t * 10 ^ w)).
      { rewrite En. apply Z.le_trans with (2 * (n + 1) * 10 ^ t); [lia|]. replace ((2 * h + 1) * (10 ^ t * 10 ^ w)) with ((2 * h + 1) * 10 ^ w * 10 ^ t) by ring.
        apply Z.mul_le_mono_nonneg_r; lia. }
      apply IZR_le in A1, A2. rewrite !mult_IZR, !plus_IZR in A2. rewrite mult_IZR in A1. rewrite mult_IZR in A2 at 1.
      rewrite plus_IZR in V.
      assert (B1 : (IZR h * U <= IZR M * u)%R) by (rewrite HU, <- Rmult_assoc; apply Rmult_le_compat_r; lra).
      assert (B2 : ((IZR M + 1) * u <= (IZR h + / 2) * U)%R).
      { rewrite HU, <- Rmult_assoc. apply Rmult_le_compat_r; [lra|]. rewrite !mult_IZR in *. lra. }
      lra.
    + destruct (G2 G) as [G3 G4]. clear G1 G2.
      assert (A1 : (2 * h + 1) * (10 ^ t * 10 ^ w) <= 2 * M) by (rewrite En; apply scale_le; assumption).
      assert (A2 : M + 1 <= (h + 1) * (10 ^ t * 10 ^ w)).
      { rewrite En. apply Z.le_trans with ((n + 1) * 10 ^ t); [lia|]. replace ((h + 1) * (10 ^ t * 10 ^ w)) with ((h + 1) * 10 ^ w * 10 ^ t) by ring.
        apply Z.mul_le_mono_nonneg_r; lia. }
      apply IZR_le in A1, A2. rewrite (mult_IZR _ M), (mult_IZR (2 * h + 1)), plus_IZR, (mult_IZR 2 h) in A1. rewrite (plus_IZR M), (mult_IZR (h + 1)), plus_IZR in A2.
      rewrite plus_IZR in V. rewrite plus_IZR.
      assert (B1 : ((IZR h + / 2) * U <= IZR M * u)%R) by (rewrite HU, <- Rmult_assoc; apply Rmult_le_compat_r; lra).
      assert (B2 : ((IZR M + 1) * u <= (IZR h + 1) * U)%R) by (rewrite HU, <- Rmult_assoc; apply Rmult_le_compat_r; lra).
      lra.
Qed.

Lemma div_small_rest : forall a b r, 0 < b -> 0 <= r < b -> (a * b + r) / b = a.
Proof. intros a b r Hb Hr. rewrite Z.div_add_l by lia. rewrite Z.div_small by lia. lia. Qed.

(** the facts about the integers the digits come from *)
Lemma selected_intro : forall P N e n t L n' k, 0 < N -> 1 <= P ->
  let D := dropped P N in 0 <= D -> N / 10 ^ D = n * 10 ^ t -> 0 <= t -> 1 <= L -> 10 ^ (L - 1) <= n < 10 ^ L -> n mod 10 <> 0 -> n' mod 10 <> 0 ->
  (L <= P -> n' = n /\ k = e + D + t) ->
  (P < L -> let w := L - P in e + D + t + w <= k /\
     n' * 10 ^ (k - (e + D + t) - w) = if (n / 10 ^ (w - 1)) mod 10 <? 5 then n / 10 ^ w else n / 10 ^ w + 1) ->
  selected P N e n' k.
Proof.
  intros P N e n t L n' k HN HP D HD En Ht HL Hn Hm Hm' C1 C2.
  assert (PD : 0 < 10 ^ D) by (apply Z.pow_pos_nonneg; lia). assert (Pt : 0 < 10 ^ t) by (apply Z.pow_pos_nonneg; lia).
  pose proof (Z.div_mod N (10 ^ D) ltac:(lia)) as Dm. rewrite En in Dm. pose proof (Z.mod_pos_bound N (10 ^ D) PD) as Bm.
  set (r := N mod 10 ^ D) in *. clearbody r.
  assert (BM : 10 ^ (L - 1 + t) <= n * 10 ^ t < 10 ^ (L + t)) by (rewrite !Z.pow_add_r by lia; nia).
  destruct (Z_lt_ge_dec (n * 10 ^ t) (10 ^ P)) as [K|K].
  - assert (L <= P).
    { destruct (Z_le_gt_dec L P) as [Y|Y]; [exact Y|exfalso]. assert (10 ^ P <= 10 ^ (L - 1 + t)) by (apply Z.pow_le_mono_r; lia). lia. }
    destruct (C1 H) as [-> ->]. apply (selected_cut P N e n (e + D + t) t); fold D; try assumption; try lia.
  - assert (LP : P < L + t).
    { destruct (Z_lt_ge_dec P (L + t)) as [Y|Y]; [exact Y|exfalso]. assert (10 ^ (L + t) <= 10 ^ P) by (apply Z.pow_le_mono_r; lia). lia. }
    set (w := D + t + (L - P)).
    assert (Ew : 10 ^ w = 10 ^ (w - 1) * 10) by (rewrite Z.mul_comm, <- Z.pow_succ_r by lia; f_equal; lia).
    assert (Pw : 0 < 10 ^ (w - 1)) by (apply Z.pow_pos_nonneg; lia).
    assert (R1 : 10 ^ (P - 1) <= N / 10 ^ w < 10 ^ P).
    { assert (Ed : N / 10 ^ w = n * 10 ^ t / 10 ^ (w - D)).
      { rewrite <- En. rewrite Z.div_div by (try apply Z.pow_pos_nonneg; lia). rewrite <- Z.pow_add_r by lia. do 2 f_equal. lia. }
      rewrite Ed. assert (P2 : 0 < 10 ^ (w - D)) by (apply Z.pow_pos_nonneg; lia). split.
      - apply Z.div_le_lower_bound; [exact P2|]. rewrite <- Z.pow_add_r by lia. replace (w - D + (P - 1)) with (L - 1 + t) by lia. lia.
      - apply Z.div_lt_upper_bound; [exact P2|]. rewrite <- Z.pow_add_r by lia. replace (w - D + P) with (L + t) by lia. lia. }
    apply (selected_rounded P N e n' k w (k - e - w)); fold D; try assumption; try lia.
    + destruct (Z_le_gt_dec L P) as [Y|Y]; [destruct (C1 Y) as [_ ->]; lia|]. destruct (C2 ltac:(lia)) as [Y' _]. lia.
    + destruct (Z_le_gt_dec L P) as [Y|Y].
      * destruct (C1 Y) as [-> ->]. replace (e + D + t - e - w) with (P - L) by lia.
        assert (Hr : 10 ^ D <= 10 ^ (w - 1)) by (apply Z.pow_le_mono_r; lia).
        replace (N + 5 * 10 ^ (w - 1)) with (n * 10 ^ (P - L) * 10 ^ w + (r + 5 * 10 ^ (w - 1))); [rewrite div_small_rest; lia|].
        rewrite Dm. rewrite <- Z.mul_assoc, <- Z.pow_add_r by lia. replace (P - L + w) with (D + t) by lia. rewrite Z.pow_add_r by lia. ring.
      * destruct (C2 ltac:(lia)) as [Hk Er]. replace (k - (e + D + t) - (L - P)) with (k - e - w) in Er by lia. rewrite Er.
        assert (W1 : 0 < 10 ^ (L - P - 1)) by (apply Z.pow_pos_nonneg; lia).
        assert (E1 : N / 10 ^ (w - 1) = n / 10 ^ (L - P - 1)).
        { replace (w - 1) with (D + (t + (L - P - 1))) by lia. rewrite Z.pow_add_r by lia. rewrite <- Z.div_div by (try apply Z.pow_pos_nonneg; lia).
          rewrite En. rewrite Z.pow_add_r by lia. rewrite <- Z.div_div by (try apply Z.pow_pos_nonneg; lia). rewrite Z.div_mul by lia. reflexivity. }
        assert (E2 : (N + 5 * 10 ^ (w - 1)) / 10 ^ w = (n / 10 ^ (L - P - 1) + 5) / 10).
        { rewrite Ew, <- Z.div_div by lia. rewrite Z.div_add by lia. rewrite E1. reflexivity. }
        rewrite E2. replace (n / 10 ^ (L - P)) with (n / 10 ^ (L - P - 1) / 10) by (rewrite Z.div_div by lia; f_equal; rewrite Z.mul_comm, <- Z.pow_succ_r by lia; f_equal; lia).
        set (q := n / 10 ^ (L - P - 1)). pose proof (Z.div_mod q 10 ltac:(lia)) as Dq. pose proof (Z.mod_pos_bound q 10 ltac:(lia)) as Bq.
        set (h := q / 10) in *. set (d := q mod 10) in *. rewrite Dq.
        destruct (Z.ltb_spec d 5) as [G|G].
        -- replace (10 * h + d + 5) with (h * 10 + (d + 5)) by ring. rewrite div_small_rest; lia.
        -- replace (10 * h + d + 5) with ((h + 1) * 10 + (d - 5)) by ring. rewrite div_small_rest; lia.
Qed.

Definition reduced (P : Z) (sg : list Z) (e : Z) : outcome (list Z * Z) :=
  assertb (P * 196 + 58 <? 2 ^ 64) (
  let required := (P * 196 + 58) / 59 in
  let omsb := Sig.omsb sg in
  let discard := saturating_usub omsb required * 59 / 196 in
  let! '(buffer, e) := digits_loop (Datatypes.S (Z.to_nat (128 * len sg))) sg e discard true [] in
  assertb (negb (is_empty buffer)) (round_buffer buffer e P)).
Theorem reduced_spec : forall P sg e, limbs sg -> 0 < lval sg -> - (2 ^ 20 + 126) <= e <= 0 -> 128 * Z.of_nat (length sg) <= 2 ^ 23 -> 1 <= P <= largest_precision ->
  exists b n k, reduced P sg e = Ret (b, k) /\ numeral (rev b) n /\ len b <= P /\ len b <= 2 ^ 23 /\ b <> [] /\ shortened P (IZR (lval sg) * bpow r10 e) n k /\
    e <= k <= 2 ^ 26 /\ selected P (lval sg) e n k.
Proof.
  intros P sg e Hs Hp He HL HP. unfold reduced. replace (P * 196 + 58 <? 2 ^ 64) with true by (unfold largest_precision in HP; lia). cbn [assertb]. rewrite omsb_spec by assumption.
  destruct (keep_enough (lval sg) (bitlen (lval sg)) P Hp ltac:(lia) eq_refl) as [HD [HM HM']]. cbv zeta in HD, HM, HM'.
  set (D := saturating_usub (bitlen (lval sg)) ((P * 196 + 58) / 59) * 59 / 196) in *.
  pose proof (lval_bound sg Hs) as Bs.
  assert (Bb : bitlen (lval sg) <= 2 ^ 23).
  { apply Z.le_trans with (nbits sg); [apply bitlen_le; [lia|apply nbits_nonneg|lia]|unfold nbits, nlimbs; lia]. }
  set (fuel := Datatypes.S (Z.to_nat (128 * len sg))).
  assert (Ef : Z.of_nat fuel - 1 = nbits sg) by (unfold fuel, nbits, nlimbs, len; lia).
  assert (Ef' : Z.of_nat fuel <= 2 ^ 23 + 1) by (unfold nbits, nlimbs in Ef; lia).
  destruct (digits_loop_spec fuel sg e D Hs ltac:(lia) HM ltac:(rewrite Ef; lia) ltac:(lia) ltac:(lia)) as [buf [t [n [E [Nb [Sb [Nn [Hn [En Ht]]]]]]]]].
  rewrite E. cbn [bind]. clear E. replace (is_empty buf) with false by (destruct buf; [contradiction|reflexivity]). cbn [negb assertb].
  pose proof (shows_bound _ _ Sb) as Bn.
  assert (L1 : 1 <= len buf) by (unfold len; destruct buf; [contradiction|cbn; lia]).
  assert (Lb : len buf <= 2 ^ 23).
  { destruct (Z_le_gt_dec (len buf) (2 ^ 23)) as [Y|Y]; [exact Y|exfalso].
    assert (n <= lval sg).
    { assert (0 < 10 ^ t) by (apply Z.pow_pos_nonneg; lia). assert (lval sg / 10 ^ D <= lval sg) by (apply Z.div_le_upper_bound; [apply Z.pow_pos_nonneg; lia|]; assert (0 < 10 ^ D) by (apply Z.pow_pos_nonneg; lia); nia). nia. }
    assert (X : 2 ^ (len buf - 1) < 2 ^ nbits sg).
    { apply Z.le_lt_trans with (2 := proj2 Bs). apply Z.le_trans with (10 ^ (len buf - 1)); [apply Z.pow_le_mono_l; lia|]. lia. }
    apply Z.pow_lt_mono_r_iff in X; [|lia|apply nbits_nonneg]. unfold nbits, nlimbs in X. lia. }
  destruct (round_buffer_spec buf n (e + D + t) P Sb Nb Nn Hn ltac:(lia) ltac:(lia) ltac:(lia)) as [b' [n' [k [E [Nb' [Sb' [Nn' [Hn' [Lb' [Hk [C1 C2]]]]]]]]]]].
  exists b', n', k. split; [exact E|]. pose proof (shows_bound _ _ Sb') as Bn'.
  split; [split; [exact Sb'|]; split; [intro X; apply Nb'; rewrite <- (rev_involutive b'), X; reflexivity|rewrite rev_length; exact Hn']|].
  split; [lia|]. split; [lia|]. split; [exact Nb'|].
  assert (ED : dropped P (lval sg) = D).
  { unfold dropped, D, saturating_usub, bitlen. replace (lval sg =? 0) with false by lia. rewrite (Z.mul_comm 196 P). reflexivity. }
  assert (SE : selected P (lval sg) e n' k).
  { apply (selected_intro P (lval sg) e n t (len buf) n' k); rewrite ?ED; try assumption; try lia.
    intro K. destruct (C2 K) as [C3 C4]. split; [lia|exact C4]. }
  split; [|split; [lia|exact SE]].
  assert (L1' : 1 <= len b') by (unfold len; destruct b'; [contradiction|cbn; lia]).
  assert (0 < n') by (assert (0 < 10 ^ (len b' - 1)) by (apply Z.pow_pos_nonneg; lia); lia).
  apply (shortened_intro P (lval sg) e D (lval sg / 10 ^ D) n t (len buf) (n / 10 ^ (len buf - P)) n' k (len buf - P)); try assumption; try lia.
  - split; [lia|]. apply Z.lt_le_trans with (10 ^ len b'); [lia|apply Z.pow_le_mono_r; lia].
  - intro K. specialize (C2 K). cbv zeta in C2. destruct C2 as [C2 C3]. split; [reflexivity|]. split; [reflexivity|]. split; [lia|exact C3].
Qed.

(** ** The text *)
Lemma dec_digits_spec : forall fuel n acc, 0 <= n < 10 ^ Z.of_nat fuel -> (1 <= fuel)%nat ->
  exists ds, dec_digits fuel n acc = ds ++ acc /\ digits 10 ds n /\ (1 <= length ds)%nat /\ (length ds = 1%nat \/ 10 ^ (Z.of_nat (length ds) - 1) <= n).
Proof.
  induction fuel as [|fuel IH]; intros n acc Hn Hf; [lia|]. cbn [dec_digits]. change (ch "0") with 48.
  pose proof (Z.mod_pos_bound n 10 ltac:(lia)) as Bm. pose proof (Z.div_mod n 10 ltac:(lia)) as Dm.
  destruct (Z.ltb_spec n 10) as [L|L].
  - exists [48 + n mod 10]. split; [reflexivity|]. split; [|split; [cbn; lia|left; reflexivity]].
    rewrite (Z.mod_small n 10) by lia. apply (digits_snoc 10 [] 0 (48 + n) n); [constructor|constructor; lia|lia].
  - rewrite Nat2Z.inj_succ, Z.pow_succ_r in Hn by lia.
    assert (Hf' : (1 <= fuel)%nat) by (destruct fuel; [change (10 ^ Z.of_nat 0) with 1 in Hn; lia|lia]).
    destruct (IH (n / 10) (48 + n mod 10 :: acc) ltac:(lia) Hf') as [ds [E [Dd [L1 L2]]]].
    exists (ds ++ [48 + n mod 10]). split; [rewrite E, <- app_assoc; reflexivity|]. split.
    + replace n with (n / 10 * 10 + n mod 10) at 2 by lia. apply digits_snoc; [exact Dd|constructor; lia|lia].
    + rewrite app_length. cbn [length]. split; [lia|]. right. replace (Z.of_nat (length ds + 1) - 1) with (Z.of_nat (length ds) - 1 + 1) by lia.
      rewrite Z.pow_add_r, Z.pow_1_r by lia. destruct L2 as [L2|L2]; [rewrite L2; change (10 ^ (Z.of_nat 1 - 1)) with 1|]; lia.
Qed.
Lemma digits_zeros : forall n, digits 10 (zero_digits n) 0.
Proof.
  intro n. unfold zero_digits. induction (Z.to_nat n) as [|k IH]; [constructor|]. cbn [repeat]. rewrite repeat_cons. change 0 with (0 * 10 + 0). apply digits_snoc; [exact IH|apply (dc_decimal 0); lia|lia].
Qed.
Lemma zeros_eq : forall n, zeros n = zero_digits n. Proof. reflexivity. Qed.
Lemma zero_digits_length : forall n, 0 <= n -> Z.of_nat (length (zero_digits n)) = n.
Proof. intros n Hn. unfold zero_digits. rewrite repeat_length. lia. Qed.
Lemma fmt_exponent : forall (alternate : bool) e, - 2 ^ 31 <= e <= 2 ^ 31 ->
  exponent_text (if alternate then 2 else 1) e (if negb alternate then fmt_plus e else fmt_plus03 e).
Proof.
  intros alternate e He. destruct (dec_digits_spec 20 (Z.abs e) [] ltac:(change (10 ^ Z.of_nat 20) with 100000000000000000000; lia) ltac:(lia)) as [ds [E [Dd [L1 L2]]]].
  rewrite app_nil_r in E. unfold exponent_text. destruct alternate; cbn [negb].
  - unfold fmt_plus03. rewrite E. exists (zeros (2 - len ds) ++ ds). split; [destruct (Z.ltb_spec e 0); reflexivity|]. split.
    + replace (Z.abs e) with (0 * 10 ^ len ds + Z.abs e) by lia. apply digits_app; [apply digits_zeros|exact Dd|lia].
    + rewrite app_length, Nat2Z.inj_add. destruct (Z_le_gt_dec 2 (len ds)) as [G|G].
      * replace (length (zeros (2 - len ds))) with 0%nat by (unfold zeros; rewrite repeat_length; lia). unfold len in G.
        split; [lia|]. right. cbn [Z.of_nat]. rewrite Z.add_0_l. destruct L2 as [L2|L2]; [lia|exact L2].
      * rewrite zeros_eq, zero_digits_length by lia. unfold len in *. split; [lia|left; lia].
  - unfold fmt_plus. rewrite E. exists ds. split; [destruct (Z.ltb_spec e 0); reflexivity|]. split; [exact Dd|]. split; [lia|]. destruct L2 as [L2|L2]; [left; lia|right; exact L2].
Qed.
Lemma use_scientific_spec : forall width P k d, 0 <= width -> 1 <= d <= 2 ^ 30 -> - 2 ^ 30 <= k <= 2 ^ 30 ->
  exists b, use_scientific width P k d = Ret b /\ (b = true <-> scientific width P d k).
Proof.
  intros width P k d Hw Hd Hk. unfold use_scientific, scientific.
  destruct (Z.eqb_spec width 0) as [W|W]; [exists true; split; [reflexivity|]; split; [left; exact W|reflexivity]|].
  destruct (Z.leb_spec 0 k) as [K|K].
  - exists ((width <? k) || (P <? d + k)). split; [reflexivity|]. lia.
  - rewrite usub_ret by lia. cbn [bind]. rewrite as_i32_id by lia. rewrite chk32_ret by lia. cbn [bind].
    destruct (Z.leb_spec 0 (k + (d - 1))) as [M|M]; [exists false; split; [reflexivity|]; split; [discriminate|lia]|].
    rewrite chk32_ret by lia. cbn [bind]. exists (width <? - (k + (d - 1))). split; [reflexivity|]. lia.
Qed.
Theorem layout_spec : forall width P (alternate : bool) b n k, 0 <= width -> 0 <= P -> numeral (rev b) n -> b <> [] -> len b <= P + 1 -> len b <= 2 ^ 30 -> - 2 ^ 29 <= k <= 2 ^ 29 ->
  exists t, (let! sci := use_scientific width P k (len b) in
             if sci : bool then write_scientific b k P alternate else write_positional b k) = Ret t /\ layout width P alternate n k t.
Proof.
  intros width P alternate b n k Hw HP Hn Nb Lb Lb2 Hk.
  assert (L1 : 1 <= len b) by (unfold len; destruct b; [contradiction|cbn; lia]).
  destruct (use_scientific_spec width P k (len b) Hw ltac:(lia) ltac:(lia)) as [sci [E Hsci]]. rewrite E. cbn [bind]. clear E.
  assert (Lr : forall l : list Z, Z.of_nat (length (rev l)) = len l) by (intro l; rewrite rev_length; reflexivity).
  destruct sci.
  - destruct (@exists_last _ b Nb) as [low [top Eb]]. 
    assert (Ll : len b = len low + 1) by (rewrite Eb; unfold len; rewrite app_length; cbn [length]; lia).
    unfold write_scientific. rewrite as_i32_id by lia. rewrite chk32_ret by lia. cbn [bind]. rewrite chk32_ret by lia. cbn [bind].
    rewrite usub_ret by lia. cbn [bind]. rewrite get_ret by lia. cbn [bind]. rewrite slice_to_ret by lia. cbn [bind].
    assert (T1 : nth (Z.to_nat (len b - 1)) b 0 = top).
    { rewrite Ll, Z.add_simpl_r. rewrite Eb. unfold len. rewrite Nat2Z.id, app_nth2 by lia. rewrite Nat.sub_diag. reflexivity. }
    assert (T2 : firstn (Z.to_nat (len b - 1)) b = low).
    { rewrite Ll, Z.add_simpl_r. rewrite Eb. unfold len. rewrite Nat2Z.id, firstn_app, Nat.sub_diag, firstn_all. apply app_nil_r. }
    rewrite T1, T2. rewrite Eb, rev_app_distr in Hn. cbn [rev app] in Hn.
    pose proof (proj1 Hsci eq_refl) as Sc. pose proof (len_nonneg low).
    pose proof (fmt_exponent alternate (k + (len b - 1)) ltac:(lia)) as X.
    set (x := if negb alternate then fmt_plus (k + (len b - 1)) else fmt_plus03 (k + (len b - 1))) in *.
    replace (k + (len b - 1)) with (k + Z.of_nat (length (rev low))) in X by (rewrite Lr; lia).
    assert (Sc' : scientific width P (Z.of_nat (length (top :: rev low))) k) by (cbn [length]; rewrite Nat2Z.inj_succ, Lr; replace (Z.succ (len low)) with (len b) by lia; exact Sc).
    pose proof (layout_scientific width P alternate n k top (rev low) x Hn Sc' X) as Y.
    destruct alternate; cbn [negb andb].
    + rewrite andb_false_r. rewrite Lr in Y. destruct (Z.ltb_spec (len b - 1) P) as [G|G].
      * rewrite usub_ret by lia. cbn [bind].
        eexists. split; [reflexivity|]. cbn [app]. replace (P - len b + 1) with (P - len low) by lia. rewrite zeros_eq. exact Y.
      * cbn [bind]. eexists. split; [reflexivity|]. cbn [app]. replace (P - len low) with 0 in Y by lia. exact Y.
    + cbn [bind]. rewrite andb_true_r. eexists. split; [reflexivity|]. cbn [app]. 
      destruct (Z.eqb_spec (len b) 1) as [B1|B1].
      * assert (low = []) as -> by (destruct low as [|z low]; [reflexivity|rewrite len_cons in Ll; pose proof (len_nonneg low); lia]). exact Y.
      * destruct (rev low) as [|c r] eqn:Er; [exfalso; apply (f_equal (@length Z)) in Er; rewrite rev_length in Er; unfold len in *; cbn in Er; lia|]. exact Y.
  - assert (Sc : ~ scientific width P (Z.of_nat (length (rev b))) k) by (rewrite Lr; intro Q; apply Hsci in Q; discriminate).
    unfold write_positional. destruct (Z.leb_spec 0 k) as [K|K].
    + eexists. split; [reflexivity|]. rewrite zeros_eq. apply layout_integer; assumption.
    + rewrite chk32_ret by lia. cbn [bind]. destruct (Z.ltb_spec (- k) (len b)) as [U|U].
      * rewrite slice_from_ret by lia. cbn [bind]. rewrite slice_to_ret by lia. cbn [bind]. eexists. split; [reflexivity|]. cbn [app].
        assert (Eb : rev (skipn (Z.to_nat (- k)) b) ++ rev (firstn (Z.to_nat (- k)) b) = rev b) by (rewrite <- rev_app_distr, firstn_skipn; reflexivity).
        apply layout_point; try lia.
        -- rewrite Eb. exact Hn.
        -- rewrite Eb. exact Sc.
        -- intro Q. apply (f_equal (@length Z)) in Q. rewrite rev_length, skipn_length in Q. unfold len in *. cbn in Q. lia.
        -- rewrite rev_length, firstn_length. unfold len in *. lia.
      * eexists. split; [reflexivity|]. change (bytes "0.") with [48; 46]. cbn [app]. rewrite zeros_eq. pose proof (layout_small width P alternate n k (rev b) Hn Sc) as Y.
        rewrite Lr in Y. apply Y. lia.
Qed.

Lemma fmt_normal_split : forall S x w p alternate, category x = Normal ->
  fmt S x w p alternate =
  let! '(sg, e) := scaled_sig S x in
  let! '(b, k) := reduced (chosen_precision S p) sg e in
  let! t := (let! sci := use_scientific (chosen_width w) (chosen_precision S p) k (len b) in
             if sci : bool then write_scientific b k (chosen_precision S p) alternate else write_positional b k) in
  Ret ((if is_negative x then [ch "-"] else []) ++ t).
Proof.
  intros S x w p alternate C. unfold fmt, scaled_sig, reduced, chosen_width, chosen_precision. rewrite C.
  destruct (chk32 (exp x - (PRECISION S - 1))) as [e| |]; cbn [bind]; try reflexivity.
  destruct (shift_right [sig x] e (trailing_zeros128 (sig x))) as [[[sg e'] l]| |]; cbn [bind]; try reflexivity.
  match goal with |- bind ?a _ = bind ?b _ => destruct a as [[sg' e'']| |]; cbn [bind]; try reflexivity end.
  match goal with |- assertb ?c _ = _ => destruct c; cbn [assertb]; [|reflexivity] end.
  match goal with |- bind ?a _ = _ => destruct a as [[bf k]| |]; cbn [bind]; try reflexivity end.
  destruct (negb (is_empty bf)); cbn [assertb]; [|reflexivity].
  match goal with |- bind ?a _ = bind ?b _ => destruct a as [[bf' k']| |]; cbn [bind]; try reflexivity end.
  match goal with |- bind ?a _ = _ => destruct a as [sci| |]; cbn [bind]; reflexivity end.
Qed.
Theorem fmt_normal : forall S x w p alternate, sem_ok S -> wf S x -> category x = Normal ->
  0 <= chosen_width w -> 1 <= chosen_precision S p <= largest_precision ->
  exists s, fmt S x w p alternate = Ret s /\ printed (chosen_width w) (chosen_precision S p) alternate (sign x) (Rabs (value S x)) s.
Proof.
  intros S x w p alternate HS Hx C Hw HP. rewrite fmt_normal_split by assumption. set (P := chosen_precision S p) in *. set (W := chosen_width w) in *.
  destruct (scaled_sig_spec S x HS Hx C) as [sg [e [E [Hs [Hp [He [HL [V _]]]]]]]]. rewrite E. cbn [bind]. clear E.
  destruct (reduced_spec P sg e Hs Hp He HL HP) as [b [n [k [E [Hn [Lb [Lb2 [Nb [Hsh [Hk _]]]]]]]]]]. rewrite E. cbn [bind]. clear E.
  destruct (layout_spec W P alternate b n k Hw ltac:(lia) Hn Nb ltac:(lia) ltac:(lia) ltac:(lia)) as [t [E Ht]]. rewrite E. cbn [bind].
  eexists. split; [reflexivity|]. rewrite V. exists n, k, t. split; [exact Hsh|]. split; [exact Ht|]. reflexivity.
Qed.
