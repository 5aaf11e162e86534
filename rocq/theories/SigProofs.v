(** * SigProofs.v -- the limb layer computes integer arithmetic *)
From Coq Require Import ZArith List Bool Lia ZifyBool.
From Verif Require Import Machine Sig SpecSig Limbs.
Import ListNotations.
Local Open Scope Z_scope.

Ltac Zify.zify_post_hook ::= Z.div_mod_to_equations.

(** ** Truncation loss *)
Lemma land_pow2_testbit : forall x k, 0 <= k -> negb (Z.land x (2 ^ k) =? 0) = Z.testbit x k.
Proof.
  intros x k Hk.
  destruct (Z.testbit x k) eqn:E.
  - assert (Z.testbit (Z.land x (2 ^ k)) k = true) as H.
    { rewrite Z.land_spec, E, Z.pow2_bits_true by lia. reflexivity. }
    destruct (Z.land x (2 ^ k) =? 0) eqn:E0; [|reflexivity].
    apply Z.eqb_eq in E0. rewrite E0, Z.testbit_0_l in H. discriminate.
  - assert (Z.land x (2 ^ k) = 0) as ->; [|reflexivity].
    apply Z.bits_inj'. intros n Hn. rewrite Z.land_spec, Z.bits_0.
    destruct (Z.eq_dec n k) as [->|Hnk]; [rewrite E; reflexivity|].
    rewrite Z.pow2_bits_false by lia. apply andb_false_r.
Qed.

Lemma land_ones_mod : forall x k, 0 <= k -> Z.land x (2 ^ k - 1) = x mod 2 ^ k.
Proof. intros x k Hk. rewrite <- Z.land_ones by lia. rewrite Z.ones_equiv. reflexivity. Qed.

Lemma shl128_1 : forall k, 0 <= k < 128 -> shl128 1 k = Ret (2 ^ k).
Proof.
  intros k Hk. rewrite shl128_ret by lia. rewrite Z.shiftl_mul_pow2 by lia. rewrite Z.mul_1_l.
  rewrite wrap128_id; [reflexivity|]. unfold limb. split; [apply Z.pow_nonneg; lia|apply Z.pow_lt_mono_r; lia].
Qed.

Lemma mod_pow2_succ : forall v k, 0 <= k ->
  v mod 2 ^ (k + 1) = v mod 2 ^ k + 2 ^ k * b2z (Z.testbit v k).
Proof.
  intros v k Hk. pose proof (pow2_gt0 k Hk).
  rewrite Z.pow_add_r by lia. change (2 ^ 1) with 2.
  rewrite Z.rem_mul_r by lia. f_equal. f_equal.
  rewrite Z.testbit_odd, Z.shiftr_div_pow2 by lia.
  rewrite Zmod_odd. destruct (Z.odd (v / 2 ^ k)); reflexivity.
Qed.

Lemma loss_of_bits : forall v k, 0 <= k ->
  loss_of (v mod 2 ^ (k + 1)) (2 ^ (k + 1)) =
  match Z.testbit v k, negb (v mod 2 ^ k =? 0) with
  | false, false => ExactlyZero
  | false, true => LessThanHalf
  | true, false => ExactlyHalf
  | true, true => MoreThanHalf
  end.
Proof.
  intros v k Hk. rewrite mod_pow2_succ by lia. pose proof (pow2_gt0 k Hk) as Hp.
  pose proof (Z.mod_pos_bound v (2 ^ k) Hp) as Hb.
  rewrite Z.pow_add_r by lia. change (2 ^ 1) with 2.
  unfold loss_of. set (r := v mod 2 ^ k) in *. set (d := 2 ^ k) in *.
  destruct (Z.testbit v k); cbn [b2z].
  - destruct (r + d * 1 =? 0) eqn:E; [lia|]. destruct (r =? 0) eqn:Er; cbn [negb].
    + destruct (Z.compare_spec (2 * (r + d * 1)) (d * 2)); [reflexivity|lia|lia].
    + destruct (Z.compare_spec (2 * (r + d * 1)) (d * 2)); [lia|lia|reflexivity].
  - destruct (r + d * 0 =? 0) eqn:E; destruct (r =? 0) eqn:Er; try lia; cbn [negb]; [reflexivity|].
    destruct (Z.compare_spec (2 * (r + d * 0)) (d * 2)); [lia|reflexivity|lia].
Qed.

Lemma lval_firstn_mod : forall l n, limbs l -> (n <= length l)%nat ->
  lval (firstn n l) = lval l mod 2 ^ (128 * Z.of_nat n).
Proof.
  intros l n H Hn. rewrite <- (firstn_skipn n l) at 2. rewrite lval_app.
  pose proof (lval_bound (firstn n l) (limbs_firstn n l H)) as Hb.
  unfold nbits, nlimbs in *. rewrite firstn_length_le in * by assumption.
  rewrite Z.mul_comm, Z.mod_add by (pose proof (pow2_gt0 (128 * Z.of_nat n)); lia).
  rewrite Z.mod_small by lia. reflexivity.
Qed.
Lemma lval_skipn_div : forall l n, limbs l -> (n <= length l)%nat ->
  lval (skipn n l) = lval l / 2 ^ (128 * Z.of_nat n).
Proof.
  intros l n H Hn. rewrite <- (firstn_skipn n l) at 2. rewrite lval_app.
  pose proof (lval_bound (firstn n l) (limbs_firstn n l H)) as Hb.
  unfold nbits, nlimbs in *. rewrite firstn_length_le in * by assumption.
  rewrite Z.mul_comm, Z.div_add by (pose proof (pow2_gt0 (128 * Z.of_nat n)); lia).
  rewrite Z.div_small by lia. reflexivity.
Qed.

Theorem through_truncation_spec : forall l bits, limbs l -> 0 <= bits ->
  through_truncation l bits = Ret (loss_of (lval l mod 2 ^ bits) (2 ^ bits)).
Proof.
  intros l bits Hl Hbits. unfold through_truncation.
  destruct (bits =? 0) eqn:E0.
  { apply Z.eqb_eq in E0. subst bits. change (2 ^ 0) with 1. rewrite Z.mod_1_r. reflexivity. }
  rewrite usub_ret by lia. cbn [bind]. unfold LIMB_BITS.
  set (hb := bits - 1). replace bits with (hb + 1) by lia.
  assert (0 <= hb) as Hhb by lia. clearbody hb.
  rewrite loss_of_bits by lia.
  rewrite lval_testbit by (assumption || lia).
  assert (0 <= hb mod 128 < 128) as Hk by lia.
  destruct (hb / 128 <? len l) eqn:E.
  - rewrite get_ret by lia. cbn [bind]. rewrite slice_to_ret by lia. cbn [bind].
    rewrite shl128_1 by lia. cbn [bind].
    pose proof (pow2_gt0 (hb mod 128)).
    assert (2 ^ (hb mod 128) < 2 ^ 128) by (apply Z.pow_lt_mono_r; lia).
    rewrite chk128_ret by (unfold limb; lia). cbn [bind].
    rewrite land_pow2_testbit by lia. rewrite land_ones_mod by lia.
    rewrite is_all_zeros_spec by (apply limbs_firstn; assumption).
    rewrite len_eq in E.
    rewrite lval_firstn_mod by (assumption || lia).
    rewrite lval_nth by assumption.
    rewrite Z2Nat.id by lia.
    set (v := lval l). set (q := hb / 128). set (k := hb mod 128).
    replace hb with (128 * q + k) by (unfold q, k; lia).
    replace (negb (v mod 2 ^ (128 * q + k) =? 0)) with
      (negb (((v / 2 ^ (128 * q)) mod 2 ^ 128) mod 2 ^ k =? 0) || negb (v mod 2 ^ (128 * q) =? 0)).
    { reflexivity. }
    rewrite Z.pow_add_r by lia.
    pose proof (pow2_gt0 (128 * q) ltac:(lia)) as Hq. pose proof (pow2_gt0 k ltac:(lia)) as Hk'.
    rewrite Z.rem_mul_r by lia.
    replace (((v / 2 ^ (128 * q)) mod 2 ^ 128) mod 2 ^ k) with ((v / 2 ^ (128 * q)) mod 2 ^ k).
    2:{ apply Znumtheory.Zmod_div_mod; [lia|lia|]. exists (2 ^ (128 - k)).
        rewrite <- Z.pow_add_r by lia. f_equal. lia. }
    pose proof (Z.mod_pos_bound v _ Hq). pose proof (Z.mod_pos_bound (v / 2 ^ (128 * q)) _ Hk').
    set (x := v mod 2 ^ (128 * q)) in *. set (y := (v / 2 ^ (128 * q)) mod 2 ^ k) in *.
    clearbody x y.
    destruct (y =? 0) eqn:Ey; destruct (x =? 0) eqn:Ex; destruct (x + 2 ^ (128 * q) * y =? 0) eqn:Exy;
      cbn [negb orb]; try reflexivity; exfalso; clearbody q k; nia.
  - cbn [bind]. rewrite shl128_1 by lia. cbn [bind].
    pose proof (pow2_gt0 (hb mod 128)).
    assert (2 ^ (hb mod 128) < 2 ^ 128) by (apply Z.pow_lt_mono_r; lia).
    rewrite chk128_ret by (unfold limb; lia). cbn [bind].
    rewrite !Z.land_0_l. cbn [Z.eqb negb orb].
    rewrite nth_overflow by (rewrite len_eq in E; lia). rewrite Z.testbit_0_l.
    rewrite is_all_zeros_spec by assumption.
    rewrite (Z.mod_small (lval l)).
    + reflexivity.
    + pose proof (lval_bound l Hl). split; [lia|]. apply Z.lt_le_trans with (2 ^ nbits l); [lia|].
      apply Z.pow_le_mono_r; [lia|]. unfold nbits, nlimbs. rewrite len_eq in E. lia.
Qed.

(** ** Bit positions *)
Lemma bitlen_pos : forall v, 0 < v -> bitlen v = Z.log2 v + 1.
Proof. intros v H. unfold bitlen. destruct (v =? 0) eqn:E; [lia|reflexivity]. Qed.
Lemma bitlen_spec : forall v, 0 < v -> 2 ^ (bitlen v - 1) <= v < 2 ^ bitlen v.
Proof.
  intros v H. rewrite bitlen_pos by assumption. pose proof (Z.log2_spec v H).
  replace (Z.log2 v + 1 - 1) with (Z.log2 v) by lia. rewrite <- Z.add_1_r in *. lia.
Qed.
Lemma bitlen_nonneg : forall v, 0 <= bitlen v.
Proof. intro v. unfold bitlen. pose proof (Z.log2_nonneg v). destruct (v =? 0); lia. Qed.
Lemma bitlen_unique : forall v n, 0 < n -> 2 ^ (n - 1) <= v < 2 ^ n -> bitlen v = n.
Proof.
  intros v n Hn H. assert (0 < v) by (pose proof (pow2_gt0 (n - 1)); lia).
  rewrite bitlen_pos by lia. rewrite (Z.log2_unique v (n - 1)); [lia|lia|].
  replace (Z.succ (n - 1)) with n by lia. assumption.
Qed.
Lemma bitlen_le : forall v n, 0 <= v -> 0 <= n -> (bitlen v <= n <-> v < 2 ^ n).
Proof.
  intros v n Hv Hn. unfold bitlen. destruct (v =? 0) eqn:E.
  - assert (v = 0) by lia. subst. pose proof (pow2_gt0 n Hn). lia.
  - split; intro H.
    + apply Z.log2_lt_pow2; lia.
    + assert (Z.log2 v < n) by (apply Z.log2_lt_pow2; lia). lia.
Qed.
Lemma bitlen_zero : forall v, 0 <= v -> (bitlen v = 0 <-> v = 0).
Proof.
  intros v Hv. unfold bitlen. pose proof (Z.log2_nonneg v). destruct (v =? 0) eqn:E; lia.
Qed.
Lemma bitlen_shiftl : forall v n, 0 < v -> 0 <= n -> bitlen (v * 2 ^ n) = bitlen v + n.
Proof.
  intros v n Hv Hn. pose proof (pow2_gt0 n Hn). rewrite !bitlen_pos by nia.
  rewrite Z.log2_mul_pow2 by lia. lia.
Qed.

Lemma omsb_app0 : forall l x n, omsb_rev (x :: l) n = if x =? 0 then omsb_rev l (n - 1) else n * LIMB_BITS - leading_zeros128 x.
Proof. reflexivity. Qed.

Theorem omsb_spec : forall l, limbs l -> omsb l = bitlen (lval l).
Proof.
  intros l. induction l as [|x l IH] using rev_ind; intro H; [reflexivity|].
  unfold omsb. rewrite rev_app_distr. cbn [rev app].
  rewrite omsb_app0. unfold len. rewrite app_length. cbn [length].
  apply Forall_app in H. destruct H as [Hl Hx]. inversion Hx as [|? ? Hx' _]; subst.
  specialize (IH Hl). unfold omsb in IH.
  rewrite lval_app. rewrite lval_single.
  pose proof (lval_bound l Hl) as Hb.
  destruct (x =? 0) eqn:E.
  - apply Z.eqb_eq in E. subst x. rewrite Z.mul_0_r, Z.add_0_r. rewrite <- IH. f_equal. unfold len. lia.
  - unfold limb in Hx'. unfold leading_zeros128. destruct (0 <? x) eqn:E0; [|lia].
    symmetry. pose proof (Z.log2_spec x ltac:(lia)) as Hlg. pose proof (Z.log2_nonneg x).
    unfold LIMB_BITS. unfold nbits, nlimbs in *.
    replace (Z.of_nat (length l + 1) * 128 - (127 - Z.log2 x)) with (128 * Z.of_nat (length l) + (Z.log2 x + 1)) by lia.
    set (n := 128 * Z.of_nat (length l)) in *. assert (0 <= n) by lia. clearbody n.
    apply bitlen_unique; [lia|].
    replace (n + (Z.log2 x + 1) - 1) with (n + Z.log2 x) by lia.
    rewrite !Z.pow_add_r by lia. rewrite Z.pow_succ_r in Hlg by lia. change (2 ^ 1) with 2.
    pose proof (pow2_gt0 n). nia.
Qed.

Lemma omsb_single : forall x, limb x -> omsb [x] = bitlen x.
Proof.
  intros x Hx. rewrite omsb_spec by (repeat constructor; apply Hx). rewrite lval_single. reflexivity.
Qed.

Lemma pos_tz_spec : forall p, exists m, 0 <= m /\ Z.pos p = (2 * m + 1) * 2 ^ pos_tz p /\ 0 <= pos_tz p.
Proof.
  induction p as [p IH|p IH|].
  - exists (Z.pos p). cbn [pos_tz]. rewrite Z.pow_0_r. lia.
  - destruct IH as [m [Hm [H0 H1]]]. exists m. cbn [pos_tz]. split; [assumption|]. split; [|lia].
    rewrite Pos2Z.inj_xO, H0. rewrite Z.pow_add_r by lia. change (2 ^ 1) with 2. ring.
  - exists 0. cbn. lia.
Qed.

Theorem olsb_spec : forall l, limbs l ->
  (lval l = 0 /\ olsb l = 0) \/
  (1 <= olsb l <= nbits l /\ exists m, 0 <= m /\ lval l = (2 * m + 1) * 2 ^ (olsb l - 1)).
Proof.
  intros l Hl. unfold olsb.
  assert (G : forall l i, limbs l -> 0 <= i ->
    (lval l = 0 /\ olsb_from i l = 0) \/
    (i * 128 + 1 <= olsb_from i l <= i * 128 + nbits l /\
     exists m, 0 <= m /\ lval l = (2 * m + 1) * 2 ^ (olsb_from i l - 1 - i * 128))).
  { clear. induction l as [|x l IH]; intros i H Hi.
    - left. split; reflexivity.
    - inversion H as [|? ? Hx Hl]; subst. cbn [olsb_from lval]. unfold nbits, nlimbs in *. cbn [length].
      destruct (x =? 0) eqn:E.
      + apply Z.eqb_eq in E. subst x. destruct (IH (i + 1) Hl ltac:(lia)) as [[H0 H1]|[H0 [m [Hm H1]]]].
        * left. rewrite H0. split; [reflexivity|assumption].
        * right. split; [lia|]. exists m. split; [assumption|].
          set (o := olsb_from (i + 1) l) in *. rewrite H1.
          replace (o - 1 - i * 128) with (128 + (o - 1 - (i + 1) * 128)) by lia.
          rewrite Z.pow_add_r by lia. ring.
      + right. unfold limb in Hx. unfold LIMB_BITS.
        destruct x as [|p|p]; [lia| |lia]. cbn [trailing_zeros128].
        destruct (pos_tz_spec p) as [m [Hm [Hp Htz]]].
        assert (pos_tz p < 128) as Hlt.
        { destruct (Z_lt_le_dec (pos_tz p) 128) as [h|h]; [assumption|].
          assert (2 ^ 128 <= 2 ^ pos_tz p) by (apply Z.pow_le_mono_r; lia). nia. }
        split; [lia|].
        pose proof (lval_nonneg l Hl) as Hn.
        exists (m + lval l * 2 ^ (127 - pos_tz p)).
        split. { pose proof (pow2_gt0 (127 - pos_tz p)). nia. }
        replace (i * 128 + pos_tz p + 1 - 1 - i * 128) with (pos_tz p) by lia.
        rewrite Hp at 1.
        replace (2 ^ 128) with (2 * 2 ^ (127 - pos_tz p) * 2 ^ pos_tz p).
        * ring.
        * rewrite <- Z.mul_assoc, <- Z.pow_add_r by lia. replace (127 - pos_tz p + pos_tz p) with 127 by lia. reflexivity. }
  destruct (G l 0 Hl ltac:(lia)) as [H|[H0 [m [Hm H1]]]]; [left; assumption|right].
  split; [lia|]. exists m. split; [assumption|]. rewrite H1 at 1. f_equal. f_equal. lia.
Qed.

(** ** Comparison *)
Lemma combine_app : forall (a a' b b' : list Z), length a = length b ->
  List.combine (a ++ a') (b ++ b') = List.combine a b ++ List.combine a' b'.
Proof.
  induction a as [|x a IH]; intros a' [|y b] b' H; try discriminate; [reflexivity|].
  cbn [app List.combine]. rewrite IH by (cbn in H; lia). reflexivity.
Qed.
Lemma cmp_pairs_spec : forall a b, limbs a -> limbs b -> length a = length b ->
  cmp_pairs (rev (List.combine a b)) = (lval a ?= lval b).
Proof.
  intros a. induction a as [|x a IH] using rev_ind; intros b Ha Hb Hl.
  - destruct b; [reflexivity|discriminate].
  - destruct b as [|y b _] using rev_ind.
    { rewrite app_length in Hl. cbn in Hl. lia. }
    rewrite !app_length in Hl. cbn [length] in Hl.
    assert (length a = length b) as Hl' by lia.
    apply Forall_app in Ha. destruct Ha as [Ha Hx]. apply Forall_app in Hb. destruct Hb as [Hb Hy].
    inversion Hx as [|? ? Hx' _]; subst. inversion Hy as [|? ? Hy' _]; subst.
    rewrite combine_app by assumption.
    rewrite rev_app_distr. cbn [List.combine rev app cmp_pairs].
    rewrite IH by assumption. rewrite !lval_app, !lval_single.
    pose proof (lval_bound a Ha) as Ba. pose proof (lval_bound b Hb) as Bb.
    unfold nbits, nlimbs in *. rewrite <- Hl' in *. set (n := 2 ^ (128 * Z.of_nat (length a))) in *.
    clearbody n.
    destruct (Z.compare_spec x y) as [Hxy|Hxy|Hxy].
    + subst y. destruct (Z.compare_spec (lval a) (lval b)); symmetry;
        [apply Z.compare_eq_iff|apply Z.compare_lt_iff|apply Z.compare_gt_iff]; lia.
    + symmetry. apply Z.compare_lt_iff. nia.
    + symmetry. apply Z.compare_gt_iff. nia.
Qed.

Theorem cmp_spec : forall a b, limbs a -> limbs b -> length a = length b ->
  cmp a b = Ret (lval a ?= lval b).
Proof.
  intros a b Ha Hb Hl. unfold cmp, len. rewrite Hl, Z.eqb_refl. cbn [assertb].
  rewrite cmp_pairs_spec by assumption. reflexivity.
Qed.

(** ** Single bits *)
Theorem get_bit_spec : forall l i, limbs l -> 0 <= i < nbits l ->
  get_bit l i = Ret (Z.testbit (lval l) i).
Proof.
  intros l i Hl Hi. unfold get_bit, LIMB_BITS. unfold nbits, nlimbs in Hi.
  rewrite get_ret by (rewrite len_eq; lia). cbn [bind]. rewrite shl128_1 by lia. cbn [bind].
  rewrite land_pow2_testbit by lia. rewrite lval_testbit by (assumption || lia). reflexivity.
Qed.

Lemma testbit_lor_pow2 : forall v i n, 0 <= i -> 0 <= n ->
  Z.testbit (Z.lor v (2 ^ i)) n = Z.testbit v n || (n =? i).
Proof.
  intros v i n Hi Hn. rewrite Z.lor_spec. f_equal.
  destruct (Z.eqb_spec n i) as [->|H]; [apply Z.pow2_bits_true; lia|apply Z.pow2_bits_false; lia].
Qed.

Lemma limb_of_bits : forall x, 0 <= x -> (forall n, 128 <= n -> Z.testbit x n = false) -> limb x.
Proof. intros x Hx H. split; [assumption|]. apply bits_lt_pow2; [assumption|lia|assumption]. Qed.

Theorem set_bit_spec : forall l i, limbs l -> 0 <= i < nbits l ->
  exists d, set_bit l i = Ret d /\ limbs d /\ length d = length l /\ lval d = Z.lor (lval l) (2 ^ i).
Proof.
  intros l i Hl Hi. unfold set_bit, LIMB_BITS. unfold nbits, nlimbs in Hi.
  rewrite get_ret by (rewrite len_eq; lia). cbn [bind]. rewrite shl128_1 by lia. cbn [bind].
  rewrite set_ret by (rewrite len_eq; lia).
  set (x := nth (Z.to_nat (i / 128)) l 0).
  assert (limb (Z.lor x (2 ^ (i mod 128)))) as Hx.
  { assert (limb x) as Hx by (apply limbs_nth; assumption). apply limb_of_bits.
    - apply Z.lor_nonneg. unfold limb in Hx. split; [lia|apply Z.pow_nonneg; lia].
    - intros n Hn. rewrite testbit_lor_pow2 by lia. rewrite limb_testbit_high by (assumption || lia).
      cbn [orb]. lia. }
  eexists. split; [reflexivity|]. split; [apply set_nth_limbs; assumption|].
  split; [apply set_nth_length|].
  apply lval_ext_bits; [apply set_nth_limbs; assumption| |].
  { apply Z.lor_nonneg. split; [apply lval_nonneg; assumption|apply Z.pow_nonneg; lia]. }
  intros n Hn. rewrite lval_testbit by (try apply set_nth_limbs; assumption || lia).
  rewrite nth_set_nth by lia. rewrite testbit_lor_pow2 by lia.
  rewrite (lval_testbit l n) by (assumption || lia).
  destruct (Nat.eqb_spec (Z.to_nat (n / 128)) (Z.to_nat (i / 128))) as [E|E].
  - rewrite testbit_lor_pow2 by lia. rewrite E. fold x. f_equal. lia.
  - replace (n =? i) with false; [rewrite orb_false_r; reflexivity|].
    symmetry. apply Z.eqb_neq. intro; subst. apply E. reflexivity.
Qed.

(** ** Shifts *)
Lemma limb_lor : forall x y, limb x -> limb y -> limb (Z.lor x y).
Proof.
  intros x y Hx Hy. apply limb_of_bits.
  - apply Z.lor_nonneg. unfold limb in *. lia.
  - intros n Hn. rewrite Z.lor_spec, !limb_testbit_high by assumption. reflexivity.
Qed.
Lemma limb_shiftr : forall x n, limb x -> 0 <= n -> limb (Z.shiftr x n).
Proof.
  intros x n Hx Hn. unfold limb in *. rewrite Z.shiftr_div_pow2 by lia.
  pose proof (pow2_gt0 n Hn). split; [apply Z.div_pos; lia|].
  apply Z.le_lt_trans with x; [|lia]. apply Z.div_le_upper_bound; nia.
Qed.

(** the limb written at index [i] by [shift_left] *)
Definition shl_limb (l : list Z) (jump shift : Z) (i : nat) : Z :=
  if Z.of_nat i <? jump then 0
  else
    let x := nth (Z.to_nat (Z.of_nat i - jump)) l 0 in
    if 0 <? shift then
      let x := wrap128 (Z.shiftl x shift) in
      if jump + 1 <=? Z.of_nat i
      then Z.lor x (Z.shiftr (nth (Z.to_nat (Z.of_nat i - jump - 1)) l 0) (128 - shift))
      else x
    else x.

Theorem shift_left_spec : forall l e bits, limbs l -> 0 <= bits <= 2 ^ 31 - 1 ->
  - 2 ^ 31 <= e - bits <= 2 ^ 31 - 1 ->
  exists d, shift_left l e bits = Ret (d, e - bits) /\ limbs d /\ length d = length l /\
            lval d = (lval l * 2 ^ bits) mod 2 ^ nbits l.
Proof.
  intros l e bits Hl Hb He. unfold shift_left.
  pose proof (lval_bound l Hl) as Hv.
  destruct (0 <? bits) eqn:E.
  2:{ exists l. assert (bits = 0) by lia. subst bits. rewrite Z.sub_0_r, Z.pow_0_r, Z.mul_1_r.
      rewrite Z.mod_small by lia. auto. }
  rewrite as_i32_id by lia. rewrite chk32_ret by lia. cbn [bind]. unfold LIMB_BITS.
  set (jump := bits / 128). set (shift := bits mod 128).
  assert (0 <= jump /\ 0 <= shift < 128 /\ bits = 128 * jump + shift) as [Hj [Hs Hbits]] by (unfold jump, shift; lia).
  clearbody jump shift.
  match goal with |- context [for_each _ ?b _] => set (body := b) end.
  destruct (for_each_down_set (shl_limb l jump shift) body l) as [d [Ed [Hlen Hd]]].
  { intros i d Hi Hld Heq. unfold body, shl_limb.
    destruct (Z.of_nat i <? jump) eqn:Ei.
    - cbn [bind]. rewrite set_ret by (rewrite len_eq; lia). rewrite Nat2Z.id. reflexivity.
    - rewrite get_ret by (rewrite len_eq; lia). cbn [bind].
      rewrite (Heq (Z.to_nat (Z.of_nat i - jump))) by lia.
      destruct (0 <? shift) eqn:Es.
      + rewrite shl128_ret by lia. cbn [bind].
        destruct (jump + 1 <=? Z.of_nat i) eqn:Ej.
        * rewrite get_ret by (rewrite len_eq; lia). cbn [bind].
          rewrite (Heq (Z.to_nat (Z.of_nat i - jump - 1))) by lia.
          rewrite shr128_ret by lia. cbn [bind].
          rewrite set_ret by (rewrite len_eq; lia). rewrite Nat2Z.id. reflexivity.
        * cbn [bind]. rewrite set_ret by (rewrite len_eq; lia). rewrite Nat2Z.id. reflexivity.
      + cbn [bind]. rewrite set_ret by (rewrite len_eq; lia). rewrite Nat2Z.id. reflexivity. }
  rewrite Ed. cbn [bind]. exists d. split; [reflexivity|].
  assert (limbs d) as Hdl.
  { apply limbs_of_nth. intros i Hi. rewrite Hd by lia. unfold shl_limb.
    destruct (Z.of_nat i <? jump); [unfold limb; lia|].
    destruct (0 <? shift) eqn:Es; [|apply limbs_nth; assumption].
    destruct (jump + 1 <=? Z.of_nat i).
    - apply limb_lor; [apply wrap128_limb|apply limb_shiftr; [apply limbs_nth; assumption|lia]].
    - apply wrap128_limb. }
  split; [assumption|]. split; [assumption|].
  apply lval_ext_bits; [assumption| |].
  { apply Z.mod_pos_bound. apply pow2_gt0. unfold nbits, nlimbs. lia. }
  intros n Hn. rewrite lval_testbit by assumption.
  unfold nbits, nlimbs in *.
  destruct (Z_lt_le_dec n (128 * Z.of_nat (length l))) as [Hnl|Hnl].
  2:{ rewrite nth_overflow by lia. rewrite Z.testbit_0_l. rewrite Z.mod_pow2_bits_high by lia. reflexivity. }
  rewrite Z.mod_pow2_bits_low by lia. rewrite Z.mul_pow2_bits by lia.
  rewrite Hd by lia. unfold shl_limb. rewrite Z2Nat.id by lia.
  destruct (n / 128 <? jump) eqn:Ej.
  { rewrite Z.testbit_0_l. rewrite Z.testbit_neg_r by lia. reflexivity. }
  destruct (0 <? shift) eqn:Es.
  - destruct (jump + 1 <=? n / 128) eqn:Ej1.
    + rewrite Z.lor_spec, testbit_wrap128 by lia.
      replace (n mod 128 <? 128) with true by lia. cbn [andb].
      rewrite Z.shiftl_spec by lia. rewrite Z.shiftr_spec by lia.
      destruct (Z_lt_le_dec (n mod 128) shift) as [Hns|Hns].
      * rewrite (Z.testbit_neg_r _ (n mod 128 - shift)) by lia. cbn [orb].
        rewrite lval_testbit_nth by (assumption || lia). f_equal. lia.
      * rewrite limb_testbit_high with (n := n mod 128 + (128 - shift)) by (try apply limbs_nth; assumption || lia).
        rewrite orb_false_r. rewrite lval_testbit_nth by (assumption || lia). f_equal. lia.
    + rewrite testbit_wrap128 by lia.
      replace (n mod 128 <? 128) with true by lia. cbn [andb].
      rewrite Z.shiftl_spec by lia.
      destruct (Z_lt_le_dec (n mod 128) shift) as [Hns|Hns].
      * rewrite !Z.testbit_neg_r by lia. reflexivity.
      * rewrite lval_testbit_nth by (assumption || lia). f_equal. lia.
  - rewrite lval_testbit_nth by (assumption || lia). f_equal. lia.
Qed.

Corollary shift_left_exact : forall l e bits, limbs l -> 0 <= bits <= 2 ^ 31 - 1 ->
  - 2 ^ 31 <= e - bits <= 2 ^ 31 - 1 -> lval l * 2 ^ bits < 2 ^ nbits l ->
  exists d, shift_left l e bits = Ret (d, e - bits) /\ limbs d /\ length d = length l /\
            lval d = lval l * 2 ^ bits.
Proof.
  intros l e bits Hl Hb He Hfit. destruct (shift_left_spec l e bits Hl Hb He) as [d [E [H1 [H2 H3]]]].
  exists d. split; [assumption|]. split; [assumption|]. split; [assumption|]. rewrite H3. apply Z.mod_small.
  pose proof (lval_nonneg l Hl). pose proof (pow2_gt0 bits). split; [nia|assumption].
Qed.

(** the limb written at index [i] by [shift_right] *)
Definition shr_limb (l : list Z) (jump shift : Z) (i : nat) : Z :=
  if len l <=? Z.of_nat i + jump then 0
  else
    let x := nth (Z.to_nat (Z.of_nat i + jump)) l 0 in
    if 0 <? shift then
      let x := Z.shiftr x shift in
      if Z.of_nat i + jump + 1 <? len l
      then Z.lor x (wrap128 (Z.shiftl (nth (Z.to_nat (Z.of_nat i + jump + 1)) l 0) (128 - shift)))
      else x
    else x.

Theorem shift_right_spec : forall l e bits, limbs l -> 0 <= bits <= 2 ^ 31 - 1 ->
  - 2 ^ 31 <= e + bits <= 2 ^ 31 - 1 ->
  exists d, shift_right l e bits = Ret (d, e + bits, loss_of (lval l mod 2 ^ bits) (2 ^ bits)) /\
            limbs d /\ length d = length l /\ lval d = lval l / 2 ^ bits.
Proof.
  intros l e bits Hl Hb He. unfold shift_right.
  rewrite through_truncation_spec by (assumption || lia). cbn [bind].
  set (loss := loss_of _ _).
  destruct (0 <? bits) eqn:E.
  2:{ exists l. assert (bits = 0) by lia. subst bits. rewrite Z.add_0_r, Z.pow_0_r, Z.div_1_r. auto. }
  rewrite as_i32_id by lia. rewrite chk32_ret by lia. cbn [bind]. unfold LIMB_BITS.
  set (jump := bits / 128). set (shift := bits mod 128).
  assert (0 <= jump /\ 0 <= shift < 128 /\ bits = 128 * jump + shift) as [Hj [Hs Hbits]] by (unfold jump, shift; lia).
  clearbody jump shift.
  match goal with |- context [for_each _ ?b _] => set (body := b) end.
  destruct (for_each_up_set (shr_limb l jump shift) body l (length l)) as [d [Ed [Hlen Hd]]]; [lia| |].
  { intros i d Hi Hld Heq. unfold body, shr_limb.
    rewrite !(len_eq _ d), !Hld, !(len_eq _ l).
    destruct (Z.of_nat (length l) <=? Z.of_nat i + jump) eqn:Ei.
    - cbn [bind]. rewrite set_ret by (rewrite len_eq; lia). rewrite Nat2Z.id. reflexivity.
    - rewrite get_ret by (rewrite len_eq; lia). cbn [bind].
      rewrite (Heq (Z.to_nat (Z.of_nat i + jump))) by lia.
      destruct (0 <? shift) eqn:Es.
      + rewrite shr128_ret by lia. cbn [bind].
        destruct (Z.of_nat i + jump + 1 <? Z.of_nat (length l)) eqn:Ej.
        * rewrite get_ret by (rewrite len_eq; lia). cbn [bind].
          rewrite (Heq (Z.to_nat (Z.of_nat i + jump + 1))) by lia.
          rewrite shl128_ret by lia. cbn [bind].
          rewrite set_ret by (rewrite len_eq; lia). rewrite Nat2Z.id. reflexivity.
        * cbn [bind]. rewrite set_ret by (rewrite len_eq; lia). rewrite Nat2Z.id. reflexivity.
      + cbn [bind]. rewrite set_ret by (rewrite len_eq; lia). rewrite Nat2Z.id. reflexivity. }
  change (Z.of_nat (length l)) with (len l) in Ed.
  rewrite Ed. cbn [bind]. exists d. split; [reflexivity|].
  assert (forall i, (i < length l)%nat -> nth i d 0 = shr_limb l jump shift i) as Hd'.
  { intros i Hi. rewrite Hd. destruct (Nat.ltb_spec i (length l)); [reflexivity|lia]. }
  clear Hd. rename Hd' into Hd.
  assert (limbs d) as Hdl.
  { apply limbs_of_nth. intros i Hi. rewrite Hd by lia. unfold shr_limb.
    destruct (len l <=? Z.of_nat i + jump); [unfold limb; lia|].
    destruct (0 <? shift) eqn:Es; [|apply limbs_nth; assumption].
    destruct (Z.of_nat i + jump + 1 <? len l).
    - apply limb_lor; [apply limb_shiftr; [apply limbs_nth; assumption|lia]|apply wrap128_limb].
    - apply limb_shiftr; [apply limbs_nth; assumption|lia]. }
  split; [assumption|]. split; [assumption|].
  apply lval_ext_bits; [assumption| |].
  { apply Z.div_pos; [apply lval_nonneg; assumption|apply pow2_gt0; lia]. }
  intros n Hn. rewrite lval_testbit by assumption.
  rewrite Z.div_pow2_bits by lia.
  destruct (Z_lt_le_dec n (128 * Z.of_nat (length l))) as [Hnl|Hnl].
  2:{ rewrite nth_overflow by lia. rewrite Z.testbit_0_l. symmetry.
      apply (lt_pow2_bits _ (nbits l)); [apply lval_bound; assumption|]. unfold nbits, nlimbs. lia. }
  rewrite Hd by lia. unfold shr_limb. rewrite Z2Nat.id by lia. rewrite !(len_eq _ l).
  destruct (Z.of_nat (length l) <=? n / 128 + jump) eqn:Ej.
  { rewrite Z.testbit_0_l. symmetry.
    apply (lt_pow2_bits _ (nbits l)); [apply lval_bound; assumption|]. unfold nbits, nlimbs. lia. }
  destruct (0 <? shift) eqn:Es.
  - destruct (n / 128 + jump + 1 <? Z.of_nat (length l)) eqn:Ej1.
    + rewrite Z.lor_spec, testbit_wrap128 by lia.
      replace (n mod 128 <? 128) with true by lia. cbn [andb].
      rewrite Z.shiftl_spec by lia. rewrite Z.shiftr_spec by lia.
      destruct (Z_lt_le_dec (n mod 128) (128 - shift)) as [Hns|Hns].
      * rewrite (Z.testbit_neg_r _ (n mod 128 - (128 - shift))) by lia. rewrite orb_false_r.
        rewrite lval_testbit_nth by (assumption || lia). f_equal. lia.
      * rewrite limb_testbit_high with (n := n mod 128 + shift) by (try apply limbs_nth; assumption || lia).
        cbn [orb]. rewrite lval_testbit_nth by (assumption || lia). f_equal. lia.
    + rewrite Z.shiftr_spec by lia.
      destruct (Z_lt_le_dec (n mod 128) (128 - shift)) as [Hns|Hns].
      * rewrite lval_testbit_nth by (assumption || lia). f_equal. lia.
      * rewrite limb_testbit_high by (try apply limbs_nth; assumption || lia).
        symmetry. apply (lt_pow2_bits _ (nbits l)); [apply lval_bound; assumption|]. unfold nbits, nlimbs. lia.
  - rewrite lval_testbit_nth by (assumption || lia). f_equal. lia.
Qed.
