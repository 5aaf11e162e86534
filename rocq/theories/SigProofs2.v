(** * SigProofs2.v -- extraction, carries, multiplication *)
From Coq Require Import ZArith List Bool Lia ZifyBool.
From Verif Require Import Machine Sig SpecSig Limbs SigProofs.
Import ListNotations.
Local Open Scope Z_scope.

Ltac Zify.zify_post_hook ::= Z.div_mod_to_equations.

Lemma lval_set_nth : forall l n v, (n < length l)%nat ->
  lval (set_nth l n v) = lval l + (v - nth n l 0) * 2 ^ (128 * Z.of_nat n).
Proof.
  induction l as [|x l IH]; intros [|n] v H; cbn [length] in H; try lia.
  - cbn [set_nth lval nth]. change (2 ^ (128 * Z.of_nat 0)) with 1. lia.
  - cbn [set_nth lval nth]. rewrite IH by lia. rewrite Nat2Z.inj_succ.
    replace (128 * Z.succ (Z.of_nat n)) with (128 + 128 * Z.of_nat n) by lia.
    rewrite Z.pow_add_r by lia. ring.
Qed.

Lemma lval_map0 : forall (l : list Z), lval (map (fun _ => 0) l) = 0.
Proof. induction l as [|x l IH]; cbn [map lval]; [reflexivity|rewrite IH; lia]. Qed.
Lemma limbs_map0 : forall (l : list Z), limbs (map (fun _ => 0) l).
Proof. induction l as [|x l IH]; constructor; [unfold limb; lia|assumption]. Qed.

Lemma chk_ones : forall k, 0 <= k < 128 -> chk128 (2 ^ k - 1) = Ret (2 ^ k - 1).
Proof.
  intros k Hk. apply chk128_ret. pose proof (pow2_gt0 k (proj1 Hk)).
  assert (2 ^ k < 2 ^ 128) by (apply Z.pow_lt_mono_r; lia). unfold limb. lia.
Qed.

Lemma testbit_mod_div : forall v a b n, 0 <= a -> 0 <= b -> 0 <= n ->
  Z.testbit ((v / 2 ^ a) mod 2 ^ b) n = (n <? b) && Z.testbit v (n + a).
Proof.
  intros v a b n Ha Hb Hn. destruct (n <? b) eqn:E.
  - rewrite Z.mod_pow2_bits_low by lia. rewrite Z.div_pow2_bits by lia. reflexivity.
  - rewrite Z.mod_pow2_bits_high by lia. reflexivity.
Qed.

(** arithmetic side conditions that do not depend on the limb values *)
Ltac slia := repeat match goal with
  | H : context [lval _] |- _ => clear H
  | H : context [limb _] |- _ => clear H
  | H : context [limbs _] |- _ => clear H
  end; lia.

Theorem extract_spec : forall dst src bits lsb, limbs dst -> limbs src ->
  0 <= bits -> 0 <= lsb -> limbs_for_bits bits <= nlimbs dst -> lsb + bits <= nbits src ->
  (bits = 0 -> lval dst = 0) ->
  exists d, extract dst src bits lsb = Ret d /\ limbs d /\ length d = length dst /\
            lval d = (lval src / 2 ^ lsb) mod 2 ^ bits.
Proof.
  intros dst src bits lsb Hd Hs Hb Hlsb Hfit Hin Hz. unfold extract.
  destruct (bits =? 0) eqn:E0.
  { assert (bits = 0) as Eb by slia. subst bits. exists dst. rewrite Z.pow_0_r, Z.mod_1_r. rewrite Hz by reflexivity. auto. }
  clear Hz. unfold limbs_for_bits, LIMB_BITS, nbits, nlimbs in *.
  set (dl := (bits + 128 - 1) / 128) in *.
  assert (1 <= dl /\ 128 * (dl - 1) < bits <= 128 * dl) as Hdl by (unfold dl; slia). clearbody dl.
  rewrite !len_eq.
  destruct (dl <=? Z.of_nat (length dst)) eqn:E1; [|slia]. cbn [assertb].
  set (jump := lsb / 128). set (shift := lsb mod 128).
  assert (0 <= jump /\ 0 <= shift < 128 /\ lsb = 128 * jump + shift) as [Hj [Hsh Hl]] by (unfold jump, shift; slia).
  clearbody jump shift.
  rewrite slice_from_ret by (rewrite len_eq; slia). cbn [bind].
  set (src' := skipn (Z.to_nat jump) src).
  assert (limbs src') as Hs' by (apply limbs_skipn; assumption).
  assert (length src' = (length src - Z.to_nat jump)%nat) as Hlen' by apply skipn_length.
  assert (lval src' = lval src / 2 ^ (128 * jump)) as Hv'.
  { unfold src'. rewrite lval_skipn_div by (assumption || slia). rewrite Z2Nat.id by slia. reflexivity. }
  assert (Z.of_nat (length src) - jump >= dl) as Hge by slia.
  rewrite slice_to_ret by (rewrite len_eq; slia). cbn [bind].
  set (low0 := firstn (Z.to_nat dl) src').
  assert (limbs low0) as Hlow0 by (apply limbs_firstn; assumption).
  assert (length low0 = Z.to_nat dl) as Hlen0 by (unfold low0; rewrite firstn_length_le; slia).
  destruct (shift_right_spec low0 0 shift Hlow0 ltac:(slia) ltac:(slia)) as [low [El [Hlow [Hlenl Hvl]]]].
  rewrite El. cbn [bind]. clear El.
  assert (Hbits : forall i, 0 <= i -> Z.testbit (lval low) i = (i <? 128 * dl - shift) && Z.testbit (lval src) (i + lsb)).
  { intros i Hi. rewrite Hvl. rewrite Z.div_pow2_bits by slia. unfold low0.
    rewrite lval_firstn_mod by (assumption || slia). rewrite Z2Nat.id by slia.
    destruct (i <? 128 * dl - shift) eqn:Ei; cbn [andb].
    - rewrite Z.mod_pow2_bits_low by slia. rewrite Hv'. rewrite Z.div_pow2_bits by slia. f_equal. slia.
    - rewrite Z.mod_pow2_bits_high by slia. reflexivity. }
  set (n := dl * 128 - shift).
  assert (Hfin : forall d, limbs d -> length d = Z.to_nat dl ->
            (forall i, 0 <= i -> Z.testbit (lval d) i = (i <? bits) && Z.testbit (lval src) (i + lsb)) ->
            exists r, (let! low := Ret d in
                       let! high := slice_from dst dl in Ret (low ++ map (fun _ => 0) high)) = Ret r /\
              limbs r /\ length r = length dst /\ lval r = (lval src / 2 ^ lsb) mod 2 ^ bits).
  { intros d Hdd Hld Hbd. cbn [bind]. rewrite slice_from_ret by (rewrite len_eq; slia). cbn [bind].
    eexists. split; [reflexivity|]. split; [apply limbs_app; [assumption|apply limbs_map0]|].
    split; [rewrite app_length, map_length, skipn_length; slia|].
    rewrite lval_app, lval_map0, Z.mul_0_r, Z.add_0_r. apply Z.bits_inj'. intros i Hi.
    rewrite Hbd by assumption. rewrite testbit_mod_div by slia. reflexivity. }
  destruct (n <? bits) eqn:En.
  - assert (0 < shift) by slia.
    rewrite shl128_1 by slia. cbn [bind].
    rewrite chk_ones by slia. cbn [bind].
    rewrite get_ret by (rewrite len_eq; slia). cbn [bind].
    rewrite get_ret by (rewrite len_eq; slia). cbn [bind].
    replace (n mod 128) with (128 - shift) by slia.
    rewrite shl128_ret by slia. cbn [bind]. rewrite set_ret by (rewrite len_eq; slia).
    rewrite land_ones_mod by slia.
    set (s := nth (Z.to_nat dl) src' 0). set (last := nth (Z.to_nat (dl - 1)) low 0).
    assert (Hbs : forall i, 0 <= i -> Z.testbit (wrap128 (Z.shiftl (s mod 2 ^ (bits - n)) (128 - shift))) i =
              (i <? 128) && (128 - shift <=? i) && (i - (128 - shift) <? bits - n) && Z.testbit (lval src) (128 * jump + 128 * dl + i - (128 - shift))).
    { intros i Hi. rewrite testbit_wrap128 by slia. destruct (i <? 128) eqn:E128; cbn [andb]; [|reflexivity].
      rewrite Z.shiftl_spec by slia. destruct (128 - shift <=? i) eqn:Esi; cbn [andb]; [|apply Z.testbit_neg_r; slia].
      destruct (i - (128 - shift) <? bits - n) eqn:Ebn; cbn [andb].
      - rewrite Z.mod_pow2_bits_low by slia. unfold s. rewrite lval_testbit_nth by (assumption || slia).
        rewrite Hv'. rewrite Z.div_pow2_bits by slia. f_equal. slia.
      - rewrite Z.mod_pow2_bits_high by slia. reflexivity. }
    set (w := wrap128 _) in *.
    assert (limb w) as Hw by apply wrap128_limb. clearbody w.
    assert (limb (Z.lor last w)) as Hlw by (apply limb_lor; [apply limbs_nth; assumption|assumption]).
    apply Hfin; [apply set_nth_limbs; assumption|rewrite set_nth_length; slia|].
    intros i Hi. rewrite lval_testbit by (try apply set_nth_limbs; assumption || slia).
    rewrite nth_set_nth by slia.
    destruct (Nat.eqb_spec (Z.to_nat (i / 128)) (Z.to_nat (dl - 1))) as [E|E].
    + rewrite Z.lor_spec. unfold last. rewrite lval_testbit_nth by (assumption || slia).
      rewrite Hbits by slia. rewrite Hbs by slia.
      replace (128 * Z.of_nat (Z.to_nat (dl - 1)) + i mod 128) with i by slia.
      replace (128 * jump + 128 * dl + i mod 128 - (128 - shift)) with (i + lsb) by slia.
      destruct (Z.testbit (lval src) (i + lsb)); slia.
    + rewrite <- (lval_testbit low) by (assumption || slia). rewrite Hbits by slia.
      destruct (Z.testbit (lval src) (i + lsb)); [|rewrite !andb_false_r; reflexivity].
      rewrite !andb_true_r. destruct (Z_lt_le_dec i (128 * (dl - 1))); slia.
  - destruct ((bits <? n) && (0 <? bits mod 128)) eqn:En2.
    + rewrite shl128_1 by slia. cbn [bind].
      rewrite chk_ones by slia. cbn [bind].
      rewrite get_ret by (rewrite len_eq; slia). cbn [bind].
      rewrite set_ret by (rewrite len_eq; slia). rewrite land_ones_mod by slia.
      set (last := nth (Z.to_nat (dl - 1)) low 0).
      assert (limb last) as Hlast by (apply limbs_nth; assumption).
      assert (limb (last mod 2 ^ (bits mod 128))) as Hm.
      { rewrite <- Z.land_ones by slia. destruct Hlast as [h1 h2]. split.
        - apply Z.land_nonneg. left. assumption.
        - rewrite Z.land_ones by slia. apply Z.lt_le_trans with (2 ^ (bits mod 128)).
          + apply Z.mod_pos_bound. apply pow2_gt0. slia.
          + apply Z.pow_le_mono_r; slia. }
      apply Hfin; [apply set_nth_limbs; assumption|rewrite set_nth_length; slia|].
      intros i Hi. rewrite lval_testbit by (try apply set_nth_limbs; assumption || slia).
      rewrite nth_set_nth by slia.
      destruct (Nat.eqb_spec (Z.to_nat (i / 128)) (Z.to_nat (dl - 1))) as [E|E].
      * destruct (Z_lt_le_dec (i mod 128) (bits mod 128)) as [Hlt|Hlt].
        -- rewrite Z.mod_pow2_bits_low by slia. unfold last. rewrite lval_testbit_nth by (assumption || slia).
           rewrite Hbits by slia.
           replace (128 * Z.of_nat (Z.to_nat (dl - 1)) + i mod 128) with i by slia.
           destruct (Z.testbit (lval src) (i + lsb)); slia.
        -- rewrite Z.mod_pow2_bits_high by slia.
           destruct (Z.testbit (lval src) (i + lsb)); slia.
      * rewrite <- (lval_testbit low) by (assumption || slia). rewrite Hbits by slia.
        destruct (Z.testbit (lval src) (i + lsb)); [|rewrite !andb_false_r; reflexivity].
        rewrite !andb_true_r. destruct (Z_lt_le_dec i (128 * (dl - 1))); slia.
    + apply Hfin; [assumption|slia|]. intros i Hi. rewrite Hbits by assumption. f_equal. slia.
Qed.

Theorem from_limbs_spec : forall dst src precision, limbs dst -> limbs src ->
  1 <= precision <= 2 ^ 31 - 1 -> limbs_for_bits precision <= nlimbs dst -> nbits src <= 2 ^ 31 - 1 ->
  (lval src = 0 -> lval dst = 0) ->
  let o := bitlen (lval src) in
  let sh := Z.max 0 (o - precision) in
  exists d, from_limbs dst src precision =
              Ret (d, loss_of (lval src mod 2 ^ sh) (2 ^ sh), precision - 1 + sh) /\
    limbs d /\ length d = length dst /\ lval d = lval src / 2 ^ sh.
Proof.
  intros dst src precision Hd Hs Hp Hfit Hin Hz o sh. unfold from_limbs.
  rewrite omsb_spec by assumption. fold o.
  pose proof (lval_bound src Hs) as Hb.
  assert (0 <= o <= nbits src) as Ho.
  { split; [apply bitlen_nonneg|]. apply bitlen_le; unfold nbits, nlimbs in *; lia. }
  assert (lval src < 2 ^ o) as Hvo by (apply bitlen_le; lia).
  destruct (precision <=? o) eqn:E.
  - assert (sh = o - precision) as Hsh by lia.
    destruct (extract_spec dst src precision (o - precision) Hd Hs) as [d [Ed [Hdl [Hlen Hv]]]]; try lia.
    rewrite Ed. cbn [bind]. rewrite through_truncation_spec by (assumption || lia). cbn [bind].
    rewrite as_i32_id by lia. rewrite chk32_ret by lia. cbn [bind].
    exists d. rewrite Hsh. split; [f_equal; f_equal; lia|]. split; [assumption|]. split; [assumption|].
    rewrite Hv. apply Z.mod_small. pose proof (pow2_gt0 (o - precision)).
    split; [apply Z.div_pos; lia|]. apply Z.div_lt_upper_bound; [lia|]. rewrite <- Z.pow_add_r by lia.
    replace (o - precision + precision) with o by lia. lia.
  - assert (sh = 0) as Hsh by lia.
    destruct (extract_spec dst src o 0 Hd Hs) as [d [Ed [Hdl [Hlen Hv]]]]; try lia.
    { unfold limbs_for_bits, LIMB_BITS in *. lia. }
    { intro Ho0. apply Hz. apply bitlen_zero; lia. }
    rewrite Ed. cbn [bind].
    rewrite as_i32_id by lia. rewrite chk32_ret by lia. cbn [bind].
    exists d. rewrite Hsh. change (2 ^ 0) with 1. rewrite Z.mod_1_r.
    split; [cbn; f_equal; f_equal; lia|]. split; [assumption|]. split; [assumption|].
    rewrite Hv. change (2 ^ 0) with 1. rewrite Z.div_1_r. apply Z.mod_small. lia.
Qed.

(** ** Chunked long division *)
(** [f] divides by [D]: chunk and running remainder to quotient digit and remainder. *)
Definition divides_by (D bits : Z) (f : Z -> Z -> outcome (Z * Z)) : Prop :=
  forall c r, 0 <= c < 2 ^ bits -> 0 <= r < D ->
    f c r = Ret ((r * 2 ^ bits + c) / D, (r * 2 ^ bits + c) mod D).

Lemma div_digit_bound : forall D r c B, 0 < D -> 0 <= r < D -> 0 <= c < B -> 0 <= (r * B + c) / D < B.
Proof.
  intros D r c B HD Hr Hc. split; [apply Z.div_pos; nia|]. apply Z.div_lt_upper_bound; nia.
Qed.

(** long division, one digit *)
Lemma div_step : forall D r a b B, 0 < D -> 0 <= r < D -> 0 <= b < B ->
  (r * B + b) / D * 1 = (r * B + b) / D /\
  forall n q s, 0 <= n ->
    q = (r * B + b) / D -> s = (r * B + b) mod D ->
    0 <= a < 2 ^ n ->
    (r * (B * 2 ^ n) + (b * 2 ^ n + a)) / D = q * 2 ^ n + (s * 2 ^ n + a) / D /\
    (r * (B * 2 ^ n) + (b * 2 ^ n + a)) mod D = (s * 2 ^ n + a) mod D.
Proof.
  intros D r a b B HD Hr Hb. split; [lia|]. intros n q s Hn Hq Hs Ha.
  pose proof (Z.div_mod (r * B + b) D ltac:(lia)) as E. rewrite <- Hq, <- Hs in E.
  replace (r * (B * 2 ^ n) + (b * 2 ^ n + a)) with (q * 2 ^ n * D + (s * 2 ^ n + a)) by nia.
  rewrite Z.div_add_l by lia. split; [reflexivity|].
  rewrite Z.add_comm. rewrite Z.mod_add by lia. reflexivity.
Qed.

Lemma each_chunk_limb_spec : forall D bits f x r, 0 < D -> 0 < bits < 128 -> 128 mod bits = 0 ->
  divides_by D bits f -> limb x -> 0 <= r < D ->
  each_chunk_limb bits f x r = Ret ((r * 2 ^ 128 + x) / D, (r * 2 ^ 128 + x) mod D).
Proof.
  intros D bits f x r HD Hbits Hdiv Hf Hx Hr. unfold each_chunk_limb, LIMB_BITS.
  set (k := 128 / bits). assert (128 = k * bits) as Hk by (unfold k; lia).
  assert (0 < k) as Hk0 by nia. clearbody k.
  pose proof (pow2_gt0 bits ltac:(lia)) as Hpb.
  set (m := Z.to_nat k). replace k with (Z.of_nat m) in * by lia. clearbody m. clear k.
  match goal with |- for_each _ ?b _ = _ => set (body := b) end.
  (* after the chunks above index i have been processed: the quotient digits and the remainder *)
  destruct (for_each_down_inv _
    (fun i '(q, s) =>
       let n := Z.of_nat i * bits in
       q = 2 ^ n * ((r * 2 ^ (128 - n) + x / 2 ^ n) / D) /\ s = (r * 2 ^ (128 - n) + x / 2 ^ n) mod D)
    body m (0, r)) as [[q s] [E H]].
  - cbv beta iota zeta. replace (128 - Z.of_nat m * bits) with 0 by lia. replace (Z.of_nat m * bits) with 128 by lia.
    unfold limb in Hx. rewrite (Z.div_small x) by lia. rewrite Z.pow_0_r, Z.mul_1_r, Z.add_0_r.
    rewrite (Z.div_small r) by lia. rewrite Z.mod_small by lia. lia.
  - intros i [q s] Hi. cbv beta iota zeta.
    set (n' := Z.of_nat (Datatypes.S i) * bits). set (n := Z.of_nat i * bits).
    assert (n' = n + bits) as Hn' by (unfold n, n'; lia).
    assert (0 <= n /\ n + bits <= 128) as Hn by (unfold n; nia).
    intros [Hq Hs].
    assert (limb x) as Hxl by exact Hx. unfold limb in Hx.
    rewrite Hn' in *. clear n' Hn'.
    pose proof (pow2_gt0 n ltac:(lia)) as Hpn.
    set (A := x / 2 ^ (n + bits)). set (c := (x / 2 ^ n) mod 2 ^ bits).
    assert (x / 2 ^ n = A * 2 ^ bits + c) as Hxn.
    { unfold A, c. rewrite Z.pow_add_r by lia. rewrite <- Z.div_div by lia.
      pose proof (Z.div_mod (x / 2 ^ n) (2 ^ bits) ltac:(lia)). lia. }
    assert (0 <= c < 2 ^ bits) as Hc by (apply Z.mod_pos_bound; lia).
    assert (0 <= s < D) as Hs0 by (rewrite Hs; apply Z.mod_pos_bound; lia).
    fold A in Hq, Hs.
    assert (0 <= A) as HA by (apply Z.div_pos; [lia|apply pow2_gt0; lia]).
    set (R := r * 2 ^ (128 - (n + bits)) + A) in *.
    assert (r * 2 ^ (128 - n) + x / 2 ^ n = R * 2 ^ bits + c) as HR.
    { rewrite Hxn. unfold R. replace (128 - n) with ((128 - (n + bits)) + bits) by lia.
      rewrite Z.pow_add_r by lia. ring. }
    set (d := (s * 2 ^ bits + c) / D).
    assert (0 <= d < 2 ^ bits) as Hd by (apply div_digit_bound; lia).
    assert ((R * 2 ^ bits + c) / D = R / D * 2 ^ bits + d /\ (R * 2 ^ bits + c) mod D = (s * 2 ^ bits + c) mod D) as [HRd HRm].
    { pose proof (Z.div_mod R D ltac:(lia)) as ER. rewrite <- Hs in ER.
      unfold d. rewrite ER at 1 3.
      replace ((D * (R / D) + s) * 2 ^ bits + c) with ((R / D) * 2 ^ bits * D + (s * 2 ^ bits + c)) by ring.
      rewrite Z.div_add_l by lia. split; [reflexivity|]. rewrite Z.add_comm, Z.mod_add by lia. reflexivity. }
    exists (q + 2 ^ n * d, (s * 2 ^ bits + c) mod D). split.
    + unfold body. fold n. rewrite shr128_ret by lia. cbn [bind]. rewrite shl128_1 by lia. cbn [bind].
      assert (2 ^ bits < 2 ^ 128) by (apply Z.pow_lt_mono_r; lia).
      rewrite chk128_ret by (unfold limb; lia). cbn [bind].
      rewrite land_ones_mod by lia. rewrite Z.shiftr_div_pow2 by lia. fold c.
      rewrite Hf by assumption. cbn [bind]. fold d.
      rewrite shl128_ret by lia. cbn [bind].
      rewrite Z.shiftl_mul_pow2 by lia.
      assert (2 ^ n * 2 ^ bits <= 2 ^ 128) as Hnb by (rewrite <- Z.pow_add_r by lia; apply Z.pow_le_mono_r; lia).
      assert (0 <= d * 2 ^ n < 2 ^ n * 2 ^ bits) as Hdn by (clear - Hd Hpn; nia).
      rewrite wrap128_id by (unfold limb; clear - Hdn Hnb; lia).
      f_equal. f_equal.
      rewrite Hq. rewrite Z.lor_comm.
      rewrite Z.lor_comm.
      replace (2 ^ (n + bits) * (R / D)) with (Z.shiftl (R / D) (n + bits)) by (rewrite Z.shiftl_mul_pow2 by lia; ring).
      rewrite lor_shiftl_add; [rewrite Z.shiftl_mul_pow2 by lia; ring|lia|].
      rewrite Z.pow_add_r by lia. clear - Hd Hpn. nia.
    + cbv beta iota zeta. fold n. rewrite HR, HRd, HRm. split; [|reflexivity].
      rewrite Hq. rewrite Z.pow_add_r by lia. ring.
  - cbv beta iota zeta in H. change (Z.of_nat 0 * bits) with 0 in H. rewrite Z.sub_0_r in H.
    change (2 ^ 0) with 1 in H. rewrite Z.div_1_r in H. destruct H as [Hq Hs].
    rewrite E. rewrite Hq, Hs. rewrite Z.mul_1_l. reflexivity.
Qed.

Theorem each_chunk_div : forall D bits f l r, 0 < D -> 0 < bits < 128 -> 128 mod bits = 0 ->
  divides_by D bits f -> limbs l -> 0 <= r < D ->
  exists q, each_chunk l bits f r = Ret (q, (r * 2 ^ nbits l + lval l) mod D) /\
    limbs q /\ length q = length l /\ lval q = (r * 2 ^ nbits l + lval l) / D.
Proof.
  intros D bits f l r HD Hbits Hdiv Hf Hl Hr. unfold each_chunk, LIMB_BITS.
  rewrite Hdiv. cbn [Z.eqb assertb].
  assert (G : forall l r, limbs l -> 0 <= r < D ->
    exists q, each_chunk_rev bits f (rev l) r = Ret (rev q, (r * 2 ^ nbits l + lval l) mod D) /\
      limbs q /\ length q = length l /\ lval q = (r * 2 ^ nbits l + lval l) / D).
  { clear l r Hl Hr. intro l. induction l as [|x l IH] using rev_ind; intros r Hl Hr.
    - exists []. cbn. rewrite Z.mul_1_r, Z.add_0_r. rewrite Z.mod_small, Z.div_small by lia. repeat split; constructor.
    - apply Forall_app in Hl. destruct Hl as [Hl Hx]. inversion Hx as [|? ? Hx' _]; subst.
      rewrite rev_app_distr. cbn [rev app each_chunk_rev].
      rewrite (each_chunk_limb_spec D) by assumption. cbn [bind].
      set (q0 := (r * 2 ^ 128 + x) / D). set (s := (r * 2 ^ 128 + x) mod D).
      assert (0 <= s < D) as Hs by (apply Z.mod_pos_bound; lia).
      destruct (IH s Hl Hs) as [q [E [Hq [Hlen Hv]]]].
      rewrite E. cbn [bind]. exists (q ++ [q0]). rewrite rev_app_distr. cbn [rev app].
      rewrite !lval_app, !lval_single.
      pose proof (lval_bound l Hl) as Hb.
      assert (nbits (l ++ [x]) = 128 + nbits l) as Hnb by (unfold nbits, nlimbs; rewrite app_length; cbn [length]; lia).
      assert (0 <= nbits l) by (unfold nbits, nlimbs; lia).
      rewrite Hnb. rewrite Z.pow_add_r by lia.
      destruct (div_step D r (lval l) x (2 ^ 128) HD Hr Hx') as [_ HS].
      destruct (HS (nbits l) q0 s) as [H1 H2]; [assumption|reflexivity|reflexivity|assumption|].
      split; [f_equal; f_equal; rewrite <- H2; f_equal; ring|].
      split. { apply limbs_app; [assumption|]. constructor; [|constructor]. apply div_digit_bound; assumption. }
      split. { rewrite !app_length. cbn [length]. lia. }
      replace (nbits q) with (nbits l) by (unfold nbits, nlimbs; rewrite Hlen; reflexivity).
      rewrite Hv. replace (lval l + 2 ^ nbits l * x) with (x * 2 ^ nbits l + lval l) by ring.
      rewrite H1. ring. }
  destruct (G l r Hl Hr) as [q [E [Hq [Hlen Hv]]]].
  rewrite E. cbn [bind]. rewrite rev_involutive. exists q. auto.
Qed.

(** ** Increment, decrement, add, subtract *)
Theorem increment_spec : forall l, limbs l ->
  let '(d, c) := increment l in
  limbs d /\ length d = length l /\ 0 <= c <= 1 /\ lval d + c * 2 ^ nbits l = lval l + 1.
Proof.
  induction l as [|x l IH]; intro H.
  - cbn. repeat split; try constructor; lia.
  - inversion H as [|? ? Hx Hl]; subst. cbn [increment]. specialize (IH Hl).
    unfold limb in Hx. unfold wrap128. rewrite LIMB_MOD_eq.
    assert (nbits (x :: l) = 128 + nbits l) as Hnb by (unfold nbits, nlimbs; cbn [length]; lia).
    destruct (negb ((x + 1) mod 2 ^ 128 =? 0)) eqn:E.
    + cbn [lval length]. rewrite Z.mod_small by lia. repeat split; [constructor; [unfold limb; lia|assumption]|lia|lia|lia].
    + assert (x = 2 ^ 128 - 1) by lia. subst x. destruct (increment l) as [d c].
      destruct IH as [Hd [Hlen [Hc Hv]]].
      replace ((2 ^ 128 - 1 + 1) mod 2 ^ 128) with 0 by reflexivity.
      cbn [lval length]. rewrite Hnb. assert (0 <= nbits l) by (unfold nbits, nlimbs; lia).
      rewrite Z.pow_add_r by lia.
      repeat split; [constructor; [unfold limb; lia|assumption]|lia|lia|lia|]. nia.
Qed.

Theorem decrement_spec : forall l, limbs l ->
  let '(d, c) := decrement l in
  limbs d /\ length d = length l /\ 0 <= c <= 1 /\ lval d - c * 2 ^ nbits l = lval l - 1.
Proof.
  induction l as [|x l IH]; intro H.
  - cbn. repeat split; try constructor; lia.
  - inversion H as [|? ? Hx Hl]; subst. cbn [decrement]. specialize (IH Hl).
    unfold limb in Hx. unfold wrap128, LIMB_MAX. rewrite LIMB_MOD_eq.
    assert (nbits (x :: l) = 128 + nbits l) as Hnb by (unfold nbits, nlimbs; cbn [length]; lia).
    destruct (negb ((x - 1) mod 2 ^ 128 =? 2 ^ 128 - 1)) eqn:E.
    + cbn [lval length]. assert (1 <= x) by lia. rewrite Z.mod_small by lia.
      repeat split; [constructor; [unfold limb; lia|assumption]|lia|lia|lia].
    + assert (x = 0) by lia. subst x. destruct (decrement l) as [d c].
      destruct IH as [Hd [Hlen [Hc Hv]]].
      replace ((0 - 1) mod 2 ^ 128) with (2 ^ 128 - 1) by reflexivity.
      cbn [lval length]. rewrite Hnb. assert (0 <= nbits l) by (unfold nbits, nlimbs; lia).
      rewrite Z.pow_add_r by lia.
      repeat split; [constructor; [unfold limb; lia|assumption]|lia|lia|lia|]. nia.
Qed.

Lemma add_loop_spec : forall a b c, limbs a -> limbs b -> length a = length b -> 0 <= c <= 1 ->
  let '(d, c') := add_loop a b c in
  limbs d /\ length d = length a /\ 0 <= c' <= 1 /\ lval d + c' * 2 ^ nbits a = lval a + lval b + c.
Proof.
  induction a as [|x a IH]; intros [|y b] c Ha Hb Hl Hc; try discriminate.
  - cbn. repeat split; try constructor; lia.
  - inversion Ha as [|? ? Hx Ha']; subst. inversion Hb as [|? ? Hy Hb']; subst. cbn [length] in Hl.
    cbn [add_loop]. unfold overflowing_add128, wrap128. rewrite LIMB_MOD_eq. unfold limb in Hx, Hy.
    set (r1 := (x + y) mod 2 ^ 128). set (o1 := 2 ^ 128 <=? x + y).
    set (r2 := (r1 + c) mod 2 ^ 128). set (o2 := 2 ^ 128 <=? r1 + c).
    assert (r2 + b2z (o1 || o2) * 2 ^ 128 = x + y + c /\ 0 <= r2 < 2 ^ 128 /\ 0 <= b2z (o1 || o2) <= 1) as [H1 [H2 H3]].
    { unfold r2, o2, r1, o1, b2z. destruct (2 ^ 128 <=? x + y) eqn:E1; cbn [orb].
      - replace ((x + y) mod 2 ^ 128) with (x + y - 2 ^ 128) by lia. rewrite Z.mod_small by lia. lia.
      - rewrite (Z.mod_small (x + y)) by lia. destruct (2 ^ 128 <=? x + y + c) eqn:E2; lia. }
    clearbody r2. set (c' := b2z (o1 || o2)) in *. clearbody c'. clear r1 o1 o2.
    specialize (IH b c' Ha' Hb' ltac:(lia) H3). destruct (add_loop a b c') as [d c''].
    destruct IH as [Hd [Hlen [Hc'' Hv]]].
    assert (nbits (x :: a) = 128 + nbits a) as Hnb by (unfold nbits, nlimbs; cbn [length]; lia).
    assert (0 <= nbits a) by (unfold nbits, nlimbs; lia).
    cbn [lval length]. rewrite Hnb, Z.pow_add_r by lia.
    repeat split; [constructor; [unfold limb; lia|assumption]|lia|lia|lia|]. nia.
Qed.

Theorem add_spec : forall a b c, limbs a -> limbs b -> length a = length b -> 0 <= c <= 1 ->
  exists d c', add a b c = Ret (d, c') /\
  limbs d /\ length d = length a /\ 0 <= c' <= 1 /\ lval d + c' * 2 ^ nbits a = lval a + lval b + c.
Proof.
  intros a b c Ha Hb Hl Hc. pose proof (add_loop_spec a b c Ha Hb Hl Hc) as H. unfold add.
  destruct (c <=? 1) eqn:E; [|lia]. cbn [assertb]. destruct (add_loop a b c) as [d c']. exists d, c'. auto.
Qed.

Lemma sub_loop_spec : forall a b c, limbs a -> limbs b -> length a = length b -> 0 <= c <= 1 ->
  let '(d, c') := sub_loop a b c in
  limbs d /\ length d = length a /\ 0 <= c' <= 1 /\ lval d - c' * 2 ^ nbits a = lval a - lval b - c.
Proof.
  induction a as [|x a IH]; intros [|y b] c Ha Hb Hl Hc; try discriminate.
  - cbn. repeat split; try constructor; lia.
  - inversion Ha as [|? ? Hx Ha']; subst. inversion Hb as [|? ? Hy Hb']; subst. cbn [length] in Hl.
    cbn [sub_loop]. unfold overflowing_sub128, wrap128. rewrite LIMB_MOD_eq. unfold limb in Hx, Hy.
    set (r1 := (x - y) mod 2 ^ 128). set (o1 := x <? y).
    set (r2 := (r1 - c) mod 2 ^ 128). set (o2 := r1 <? c).
    assert (r2 - b2z (o1 || o2) * 2 ^ 128 = x - y - c /\ 0 <= r2 < 2 ^ 128 /\ 0 <= b2z (o1 || o2) <= 1) as [H1 [H2 H3]].
    { unfold r2, o2, r1, o1, b2z. destruct (x <? y) eqn:E1; cbn [orb].
      - replace ((x - y) mod 2 ^ 128) with (x - y + 2 ^ 128) by lia. rewrite Z.mod_small by lia. lia.
      - rewrite (Z.mod_small (x - y)) by lia. destruct (x - y <? c) eqn:E2; lia. }
    clearbody r2. set (c' := b2z (o1 || o2)) in *. clearbody c'. clear r1 o1 o2.
    specialize (IH b c' Ha' Hb' ltac:(lia) H3). destruct (sub_loop a b c') as [d c''].
    destruct IH as [Hd [Hlen [Hc'' Hv]]].
    assert (nbits (x :: a) = 128 + nbits a) as Hnb by (unfold nbits, nlimbs; cbn [length]; lia).
    assert (0 <= nbits a) by (unfold nbits, nlimbs; lia).
    cbn [lval length]. rewrite Hnb, Z.pow_add_r by lia.
    repeat split; [constructor; [unfold limb; lia|assumption]|lia|lia|lia|]. nia.
Qed.

Theorem sub_spec : forall a b c, limbs a -> limbs b -> length a = length b -> 0 <= c <= 1 ->
  exists d c', sub a b c = Ret (d, c') /\
  limbs d /\ length d = length a /\ 0 <= c' <= 1 /\ lval d - c' * 2 ^ nbits a = lval a - lval b - c.
Proof.
  intros a b c Ha Hb Hl Hc. pose proof (sub_loop_spec a b c Ha Hb Hl Hc) as H. unfold sub.
  destruct (c <=? 1) eqn:E; [|lia]. cbn [assertb]. destruct (sub_loop a b c) as [d c']. exists d, c'. auto.
Qed.

Lemma sub_nocarry : forall a b c, limbs a -> limbs b -> length a = length b -> 0 <= c <= 1 ->
  lval b + c <= lval a ->
  exists d, sub a b c = Ret (d, 0) /\ limbs d /\ length d = length a /\ lval d = lval a - lval b - c.
Proof.
  intros a b c Ha Hb Hl Hc Hle. destruct (sub_spec a b c Ha Hb Hl Hc) as [d [c' [E [Hd [Hlen [Hc' Hv]]]]]].
  pose proof (lval_bound d Hd) as Bd. pose proof (lval_bound a Ha). pose proof (lval_bound b Hb).
  assert (nbits d = nbits a) as Hn by (unfold nbits, nlimbs; rewrite Hlen; reflexivity). rewrite Hn in *.
  assert (c' = 0) by nia. subst c'. exists d. repeat split; try assumption. lia.
Qed.

Lemma add_nocarry : forall a b c, limbs a -> limbs b -> length a = length b -> 0 <= c <= 1 ->
  lval a + lval b + c < 2 ^ nbits a ->
  exists d, add a b c = Ret (d, 0) /\ limbs d /\ length d = length a /\ lval d = lval a + lval b + c.
Proof.
  intros a b c Ha Hb Hl Hc Hle. destruct (add_spec a b c Ha Hb Hl Hc) as [d [c' [E [Hd [Hlen [Hc' Hv]]]]]].
  pose proof (lval_bound d Hd) as Bd.
  assert (nbits d = nbits a) as Hn by (unfold nbits, nlimbs; rewrite Hlen; reflexivity). rewrite Hn in *.
  assert (c' = 0) by nia. subst c'. exists d. repeat split; try assumption. lia.
Qed.

(** ** Multiplication *)
Lemma limbs2 : forall (l : list Z), length l = 2%nat -> exists a b, l = [a; b].
Proof. intros [|a [|b [|c l]]] H; try discriminate. exists a, b. reflexivity. Qed.
Lemma limbs1 : forall (l : list Z), length l = 1%nat -> exists a, l = [a].
Proof. intros [|a [|b l]] H; try discriminate. exists a. reflexivity. Qed.
Lemma limb_1 : forall x, limb x -> limbs [x].
Proof. intros x H. repeat constructor; apply H. Qed.
Lemma limb_2 : forall x y, limb x -> limb y -> limbs [x; y].
Proof. intros x y H H'. repeat constructor; (apply H || apply H'). Qed.
Lemma limb_0 : limb 0. Proof. unfold limb. lia. Qed.

Lemma select_spec : forall x i, limb x -> 0 <= i <= 1 -> select x i = Ret ((x / 2 ^ (64 * i)) mod 2 ^ 64).
Proof.
  intros x i Hx Hi. unfold select, HALF_BITS, LIMB_BITS. change (128 / 2) with 64.
  rewrite shr128_ret by lia. cbn [bind]. rewrite shl128_1 by lia. cbn [bind].
  rewrite chk128_ret by (unfold limb; lia). cbn [bind].
  change (2 ^ 64 - 1) with (2 ^ 64 - 1). rewrite land_ones_mod by lia.
  rewrite Z.shiftr_div_pow2 by lia. f_equal. f_equal. f_equal. f_equal. lia.
Qed.

Lemma widening_step : forall a b i j wide, limb a -> limb b -> 0 <= i <= 1 -> 0 <= j <= 1 ->
  limbs wide -> length wide = 2%nat ->
  let p := (a / 2 ^ (64 * i)) mod 2 ^ 64 * ((b / 2 ^ (64 * j)) mod 2 ^ 64) * 2 ^ (64 * (i + j)) in
  lval wide + p < 2 ^ 256 ->
  exists w, (let! x := select a i in
          let! y := select b j in
          let! xy := chk128 (x * y) in
          let! '(x, _) := shift_left [xy; 0] 0 ((i + j) * HALF_BITS) in
          let! '(wide, c) := add wide x 0 in
          assertb (c =? 0) (Ret wide)) = Ret w /\ limbs w /\ length w = 2%nat /\ lval w = lval wide + p.
Proof.
  intros a b i j wide Ha Hb Hi Hj Hw Hlw p Hfit.
  rewrite !select_spec by assumption. cbn [bind].
  set (x := (a / 2 ^ (64 * i)) mod 2 ^ 64) in *. set (y := (b / 2 ^ (64 * j)) mod 2 ^ 64) in *.
  assert (0 <= x < 2 ^ 64 /\ 0 <= y < 2 ^ 64) as [Hx Hy].
  { split; apply Z.mod_pos_bound; reflexivity. }
  clearbody x y.
  assert (limb (x * y)) as Hxy by (unfold limb; change (2 ^ 128) with (2 ^ 64 * 2 ^ 64); nia).
  rewrite chk128_ret by assumption. cbn [bind]. unfold HALF_BITS, LIMB_BITS. change (128 / 2) with 64.
  assert (lval [x * y; 0] = x * y) as Hxv by (cbn [lval]; lia).
  assert (nbits [x * y; 0] = 256) as Hnb by reflexivity.
  pose proof (lval_nonneg wide Hw).
  destruct (shift_left_exact [x * y; 0] 0 ((i + j) * 64)) as [d [E [Hd [Hld Hvd]]]];
    [apply limb_2; [assumption|apply limb_0]|lia|lia| |].
  { rewrite Hxv, Hnb. replace ((i + j) * 64) with (64 * (i + j)) by lia. fold p. lia. }
  rewrite E. cbn [bind].
  replace ((i + j) * 64) with (64 * (i + j)) in Hvd by lia. rewrite Hxv in Hvd. fold p in Hvd.
  destruct (add_nocarry wide d 0 Hw Hd) as [w [Ew [Hwl [Hlen Hv]]]]; [cbn in Hld; lia|lia| |].
  { rewrite Hvd. unfold nbits, nlimbs. rewrite Hlw. change (128 * Z.of_nat 2) with 256. lia. }
  rewrite Ew. cbn [bind Z.eqb assertb]. exists w. repeat split; [assumption|lia|lia].
Qed.

Theorem widening_mul_spec : forall a b, limb a -> limb b ->
  exists lo hi, widening_mul a b = Ret (lo, hi) /\ limb lo /\ limb hi /\ lo + 2 ^ 128 * hi = a * b.
Proof.
  intros a b Ha Hb. unfold widening_mul.
  destruct ((a =? 0) || (b =? 0)) eqn:E.
  { exists 0, 0. split; [reflexivity|]. split; [apply limb_0|]. split; [apply limb_0|].
    destruct (a =? 0) eqn:Ea; [assert (a = 0) by lia; subst; reflexivity|].
    assert (b = 0) by lia. subst. lia. }
  clear E. cbn [for_each].
  pose (a0 := (a / 2 ^ (64 * 0)) mod 2 ^ 64). pose (a1 := (a / 2 ^ (64 * 1)) mod 2 ^ 64).
  pose (b0 := (b / 2 ^ (64 * 0)) mod 2 ^ 64). pose (b1 := (b / 2 ^ (64 * 1)) mod 2 ^ 64).
  assert (0 <= a0 < 2 ^ 64 /\ 0 <= a1 < 2 ^ 64 /\ 0 <= b0 < 2 ^ 64 /\ 0 <= b1 < 2 ^ 64) as [Ba0 [Ba1 [Bb0 Bb1]]].
  { repeat split; try (apply Z.mod_pos_bound; reflexivity). }
  assert (a = a0 + 2 ^ 64 * a1 /\ b = b0 + 2 ^ 64 * b1) as [Ea Eb].
  { unfold limb in *. unfold a0, a1, b0, b1. change (2 ^ (64 * 0)) with 1. change (2 ^ (64 * 1)) with (2 ^ 64).
    split; lia. }
  assert (Hbound : forall s t u v, 0 <= s < 2 ^ 64 -> 0 <= t < 2 ^ 64 -> 0 <= u < 2 ^ 64 -> 0 <= v < 2 ^ 64 ->
     s * t * 2 ^ 0 + s * v * 2 ^ 64 + u * t * 2 ^ 64 + u * v * 2 ^ 128 < 2 ^ 256).
  { clear. intros s t u v Hs Ht Hu Hv.
    assert (s * t * 2 ^ 0 + s * v * 2 ^ 64 + u * t * 2 ^ 64 + u * v * 2 ^ 128 = (s + u * 2 ^ 64) * (t + v * 2 ^ 64)) as ->
      by (change (2 ^ 128) with (2 ^ 64 * 2 ^ 64); ring).
    change (2 ^ 256) with (2 ^ 128 * 2 ^ 128).
    assert (0 <= s + u * 2 ^ 64 < 2 ^ 128) by (change (2 ^ 128) with (2 ^ 64 * 2 ^ 64); nia).
    assert (0 <= t + v * 2 ^ 64 < 2 ^ 128) by (change (2 ^ 128) with (2 ^ 64 * 2 ^ 64); nia). nia. }
  specialize (Hbound a0 b0 a1 b1 Ba0 Bb0 Ba1 Bb1).
  assert (0 <= a0 * b0 /\ 0 <= a0 * b1 /\ 0 <= a1 * b0 /\ 0 <= a1 * b1) as [P1 [P2 [P3 P4]]] by nia.
  destruct (widening_step a b 0 0 [0; 0]) as [w1 [E1 [L1 [N1 V1]]]];
    [assumption|assumption|lia|lia|apply limb_2; apply limb_0|reflexivity| |].
  { cbv zeta. fold a0 b0. change (lval [0; 0]) with 0. change (2 ^ (64 * (0 + 0))) with (2 ^ 0). lia. }
  rewrite E1. cbn [bind]. clear E1.
  fold a0 b0 in V1. change (2 ^ (64 * (0 + 0))) with (2 ^ 0) in V1. change (lval [0; 0]) with 0 in V1.
  destruct (widening_step a b 0 1 w1) as [w2 [E2 [L2 [N2 V2]]]];
    [assumption|assumption|lia|lia|assumption|assumption| |].
  { cbv zeta. fold a0 b1. change (2 ^ (64 * (0 + 1))) with (2 ^ 64). lia. }
  rewrite E2. cbn [bind]. clear E2.
  fold a0 b1 in V2. change (2 ^ (64 * (0 + 1))) with (2 ^ 64) in V2.
  destruct (widening_step a b 1 0 w2) as [w3 [E3 [L3 [N3 V3]]]];
    [assumption|assumption|lia|lia|assumption|assumption| |].
  { cbv zeta. fold a1 b0. change (2 ^ (64 * (1 + 0))) with (2 ^ 64). lia. }
  rewrite E3. cbn [bind]. clear E3.
  fold a1 b0 in V3. change (2 ^ (64 * (1 + 0))) with (2 ^ 64) in V3.
  destruct (widening_step a b 1 1 w3) as [w4 [E4 [L4 [N4 V4]]]];
    [assumption|assumption|lia|lia|assumption|assumption| |].
  { cbv zeta. fold a1 b1. change (2 ^ (64 * (1 + 1))) with (2 ^ 128). lia. }
  rewrite E4. cbn [bind]. clear E4.
  fold a1 b1 in V4. change (2 ^ (64 * (1 + 1))) with (2 ^ 128) in V4.
  destruct (limbs2 w4 N4) as [lo [hi ->]]. exists lo, hi. split; [reflexivity|].
  split; [exact (Forall_inv L4)|]. split; [exact (Forall_inv (Forall_inv_tail L4))|].
  cbn [lval] in V4. rewrite Z.mul_0_r, Z.add_0_r in V4. rewrite V4, V3, V2, V1.
  transitivity ((a0 + 2 ^ 64 * a1) * (b0 + 2 ^ 64 * b1)).
  - change (2 ^ 128) with (2 ^ 64 * 2 ^ 64). ring.
  - rewrite <- Ea, <- Eb. reflexivity.
Qed.
