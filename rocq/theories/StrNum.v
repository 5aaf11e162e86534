(** * StrNum.v -- the big numbers of a decimal numeral: its digits and the power of five *)
From Coq Require Import ZArith Reals List Bool Lia Lra ZifyBool Ascii String.
From Flocq Require Import Core.
From Verif Require Import Machine Sig SpecSig Limbs SigProofs SigProofs2 SigProofs3 SigProofs4 Ieee Spec Norm Arith Parse SpecStr StrHex StrScan.
Import ListNotations.
Local Open Scope Z_scope.
Ltac Zify.zify_post_hook ::= idtac.
Local Notation length := List.length.

(** no superfluous limbs *)
Definition tight (l : list Z) : Prop := l = [] \/ 2 ^ (nbits l - 128) <= lval l.
Lemma nbits_cons : forall x l, nbits (x :: l) = 128 + nbits l.
Proof. intros. unfold nbits, nlimbs. cbn [length]. lia. Qed.
Lemma nbits_app : forall a b, nbits (a ++ b) = nbits a + nbits b.
Proof. intros. unfold nbits, nlimbs. rewrite app_length. lia. Qed.
Lemma nbits_nonneg : forall l, 0 <= nbits l.
Proof. intros. unfold nbits, nlimbs. lia. Qed.
Lemma tight_bits : forall l, limbs l -> tight l -> nbits l <= bitlen (lval l) + 127.
Proof.
  intros l Hl [->|H]; [cbn; lia|]. destruct l as [|x r]; [cbn; lia|].
  assert (0 <= nbits (x :: r) - 128) by (rewrite nbits_cons; pose proof (nbits_nonneg r); lia).
  assert (0 < 2 ^ (nbits (x :: r) - 128)) by (apply Z.pow_pos_nonneg; lia).
  destruct (Z_lt_le_dec (bitlen (lval (x :: r)) + 127) (nbits (x :: r))) as [L|L]; [|exact L]. exfalso.
  pose proof (proj1 (bitlen_le (lval (x :: r)) (nbits (x :: r) - 128) ltac:(lia) ltac:(lia)) ltac:(lia)). lia.
Qed.

(** ** Digits *)
Lemma mul_add_spec : forall l mult carry, limbs l -> limb mult -> limb carry ->
  exists lo c, mul_add_limbs l mult carry = Ret (lo ++ (if 0 <? c then [c] else [])) /\ limbs lo /\ length lo = length l /\ limb c /\
    lval lo + 2 ^ nbits l * c = lval l * mult + carry.
Proof.
  induction l as [|x l IH]; intros mult carry Hl Hm Hc.
  - exists [], carry. cbn [mul_add_limbs lval app]. split; [destruct (0 <? carry); reflexivity|]. split; [constructor|]. split; [reflexivity|]. split; [exact Hc|].
    change (nbits []) with 0. lia.
  - pose proof (Forall_inv Hl) as Hx. pose proof (Forall_inv_tail Hl) as Hl'. cbn [mul_add_limbs].
    destruct (widening_mul_spec x mult Hx Hm) as [lo [hi [E [Blo [Bhi Ev]]]]]. rewrite E. cbn [bind].
    unfold overflowing_add128. unfold limb in *.
    set (sum := lo + carry). set (ov := b2z (LIMB_MOD <=? sum)).
    assert (Eov : wrap128 sum + 2 ^ 128 * ov = sum).
    { unfold wrap128, ov. rewrite LIMB_MOD_eq. assert (0 <= sum < 2 * 2 ^ 128) by (unfold sum; lia).
      destruct (Z.leb_spec (2 ^ 128) sum); cbn [b2z].
      - rewrite <- (Z.mod_unique sum (2 ^ 128) 1 (sum - 2 ^ 128)); lia.
      - rewrite Z.mod_small by lia. lia. }
    assert (Bw : 0 <= wrap128 sum < 2 ^ 128) by (apply wrap128_limb).
    assert (Bov : 0 <= ov <= 1) by (unfold ov; destruct (LIMB_MOD <=? sum); cbn [b2z]; lia).
    assert (Bh : 0 <= hi + ov < 2 ^ 128).
    { split; [lia|]. assert (x * mult <= (2 ^ 128 - 1) * (2 ^ 128 - 1)) by (apply Z.mul_le_mono_nonneg; lia).
      clear - H Ev Eov Bw Blo Hc. unfold sum in *. lia. }
    fold sum. fold ov. cbn [b2z]. rewrite chk128_ret by exact Bh. cbn [bind].
    destruct (IH mult (hi + ov) Hl' Hm Bh) as [lo' [c [E' [Bl' [Ll' [Bc Ev']]]]]]. rewrite E'. cbn [bind].
    exists (wrap128 sum :: lo'), c. split; [reflexivity|]. split; [constructor; [exact Bw|exact Bl']|]. split; [cbn [length]; lia|]. split; [exact Bc|].
    rewrite nbits_cons. cbn [lval]. rewrite Z.pow_add_r by (try lia; apply nbits_nonneg).
    replace (wrap128 sum + 2 ^ 128 * lval lo' + 2 ^ 128 * 2 ^ nbits l * c) with (wrap128 sum + 2 ^ 128 * (lval lo' + 2 ^ nbits l * c)) by ring.
    rewrite Ev'. unfold sum in *. clear - Ev Eov. nia.
Qed.
Lemma mul_add_tight : forall l mult carry, limbs l -> tight l -> limb mult -> 1 <= mult -> limb carry ->
  exists r, mul_add_limbs l mult carry = Ret r /\ limbs r /\ tight r /\ lval r = lval l * mult + carry.
Proof.
  intros l mult carry Hl Ht Hm Hm1 Hc. destruct (mul_add_spec l mult carry Hl Hm Hc) as [lo [c [E [Bl [Ll [Bc Ev]]]]]].
  eexists. split; [exact E|]. assert (Nb : nbits lo = nbits l) by (unfold nbits, nlimbs; rewrite Ll; reflexivity).
  unfold limb in Bc. destruct (Z.ltb_spec 0 c).
  - split; [apply limbs_app; [exact Bl|constructor; [exact Bc|constructor]]|]. assert (Ev2 : lval (lo ++ [c]) = lval l * mult + carry).
    { rewrite lval_app, lval_single, Nb. exact Ev. }
    split; [|exact Ev2]. right. rewrite nbits_app, Nb. change (nbits [c]) with 128. replace (nbits l + 128 - 128) with (nbits l) by lia.
    rewrite Ev2, <- Ev. pose proof (lval_nonneg lo Bl). assert (0 < 2 ^ nbits l) by (apply Z.pow_pos_nonneg; [lia|apply nbits_nonneg]). nia.
  - assert (c = 0) as -> by lia. rewrite app_nil_r. rewrite Z.mul_0_r, Z.add_0_r in Ev. split; [exact Bl|]. split; [|exact Ev].
    destruct Ht as [->|Ht]; [left; destruct lo; [reflexivity|discriminate]|]. right. rewrite Nb, Ev. pose proof (lval_nonneg l Hl). unfold limb in *. nia.
Qed.
Lemma dec_chunk_spec : forall chars val mult, Forall (mchar 10) chars -> 0 <= val < mult -> 1 <= mult <= (LIMB_MAX - 9) / 10 ->
  exists t rest d, chars = t ++ rest /\ digits 10 (nodot t) d /\
    dec_chunk chars val mult = Ret (val * 10 ^ len (nodot t) + d, mult * 10 ^ len (nodot t), rest) /\
    (rest <> [] -> nodot t <> []) /\ mult * 10 ^ len (nodot t) <= LIMB_MAX - 9.
Proof.
  assert (HM : (LIMB_MAX - 9) / 10 * 10 <= LIMB_MAX - 9) by (vm_compute; discriminate).
  assert (HM2 : LIMB_MAX = 2 ^ 128 - 1) by reflexivity.
  induction chars as [|c r IH]; intros val mult F Hv Hm.
  - exists [], [], 0. cbn [app nodot filter dec_chunk]. change (len []) with 0. rewrite Z.pow_0_r. split; [reflexivity|]. split; [constructor|].
    split; [do 3 f_equal; ring|]. split; [tauto|]. lia.
  - pose proof (Forall_inv F) as Hc. pose proof (Forall_inv_tail F) as Fr. cbn [dec_chunk].
    destruct Hc as [->|Hc].
    + change (46 =? ch "."%string) with true. cbv iota. destruct (IH val mult Fr Hv Hm) as [t [rest [d [-> [D [E [N B]]]]]]].
      exists (46 :: t), rest, d. change (nodot (46 :: t)) with (nodot t). repeat split; assumption.
    + assert (N46 : c <> 46) by (intros ->; destruct Hc as [k [X _]]; exact (digit_not_point k X)).
      rewrite (proj2 (Z.eqb_neq c (ch "."%string)) N46). pose proof Hc as Hcd. destruct Hc as [k [Hk Hk10]]. pose proof (digit_nonneg _ _ Hk) as Hk0.
      rewrite (proj2 (to_digit_some 10 c k ltac:(lia)) (conj Hk Hk10)).
      assert (L10 : limb (mult * 10)) by (unfold limb; lia). rewrite chk128_ret by exact L10. cbn [bind].
      assert (L11 : limb (val * 10)) by (unfold limb; lia). rewrite chk128_ret by exact L11. cbn [bind].
      assert (L12 : limb (val * 10 + k)) by (unfold limb; lia). rewrite chk128_ret by exact L12. cbn [bind].
      assert (Nd : forall t, nodot (c :: t) = c :: nodot t).
      { intro t. change (c :: t) with ([c] ++ t). rewrite nodot_app, (nodot_digits 10 [c]); [reflexivity|]. constructor; [exact Hcd|constructor]. }
      destruct (Z.ltb_spec ((LIMB_MAX - 9) / 10) (mult * 10)) as [Hb|Hb].
      * exists [c], r, k. rewrite Nd. change (len (c :: nodot [])) with 1. rewrite Z.pow_1_r. split; [reflexivity|].
        split; [apply digits_one; assumption|]. split; [reflexivity|]. split; [discriminate|]. lia.
      * destruct (IH (val * 10 + k) (mult * 10) Fr ltac:(lia) ltac:(lia)) as [t [rest [d [-> [D [E [N B]]]]]]].
        exists (c :: t), rest, (k * 10 ^ len (nodot t) + d). rewrite Nd, len_cons.
        rewrite Z.pow_add_r by (try lia; apply len_nonneg). rewrite Z.pow_1_r. split; [reflexivity|].
        split; [apply digits_cons; try assumption; lia|]. split.
        { rewrite E. do 3 f_equal; ring. }
        split; [discriminate|]. lia.
Qed.
Lemma dec_sig_spec : forall fuel chars sig, Forall (mchar 10) chars -> (length chars < fuel)%nat -> limbs sig -> tight sig ->
  exists n r, digits 10 (nodot chars) n /\ dec_sig_loop fuel chars sig = Ret r /\ limbs r /\ tight r /\
    lval r = lval sig * 10 ^ len (nodot chars) + n.
Proof.
  assert (HM2 : LIMB_MAX = 2 ^ 128 - 1) by reflexivity.
  induction fuel as [|fuel IH]; intros chars sig F Hf Hs Ht; [lia|]. cbn [dec_sig_loop].
  assert (B1 : 1 <= 1 <= (LIMB_MAX - 9) / 10) by (split; [lia|vm_compute; discriminate]).
  destruct (dec_chunk_spec chars 0 1 F ltac:(lia) B1) as [t [rest [d [-> [D [E [N B]]]]]]]. rewrite E. cbn [bind]. rewrite !Z.mul_0_l, Z.add_0_l in *. rewrite !Z.mul_1_l in *.
  apply Forall_app in F. destruct F as [Ft Fr]. pose proof (digits_bound 10 _ d ltac:(lia) D) as Bd.
  destruct (nodot t) as [|c u] eqn:Et.
  - change (len []) with 0. rewrite Z.pow_0_r, Z.eqb_refl. destruct rest as [|c' rest]; [|exfalso; apply N; [discriminate|reflexivity]].
    rewrite app_nil_r, Et. exists d, sig. split; [exact D|]. split; [reflexivity|]. split; [exact Hs|]. split; [exact Ht|].
    change (len []) with 0 in *. rewrite Z.pow_0_r in *. lia.
  - rewrite <- Et in *. assert (L1 : 1 <= len (nodot t)) by (rewrite Et, len_cons; pose proof (len_nonneg u); lia).
    assert (P10 : 10 ^ 1 <= 10 ^ len (nodot t)) by (apply Z.pow_le_mono_r; lia).
    destruct (Z.eqb_spec (10 ^ len (nodot t)) 1) as [X|_]; [lia|].
    destruct (mul_add_tight sig (10 ^ len (nodot t)) d Hs Ht) as [r [Er [Br [Tr Vr]]]]; [unfold limb; lia|lia|unfold limb; lia|].
    rewrite Er. cbn [bind].
    assert (Hlt : (0 < length t)%nat) by (destruct t; [discriminate|cbn; lia]).
    destruct (IH rest r Fr ltac:(rewrite app_length in Hf; lia) Br Tr) as [n [r' [D' [E' [B' [T' V']]]]]].
    exists (d * 10 ^ len (nodot rest) + n), r'. rewrite nodot_app. split; [apply digits_app; [exact D|exact D'|lia]|].
    split; [exact E'|]. split; [exact B'|]. split; [exact T'|]. rewrite V', Vr, len_app, Z.pow_add_r by apply len_nonneg. ring.
Qed.

(** ** The power of five *)
Lemma resize_spec : forall l n, limbs l -> 0 <= n -> limbs (resize l n) /\ Z.of_nat (length (resize l n)) = n.
Proof.
  intros l n Hl Hn. unfold resize. split; [apply limbs_app; [apply limbs_firstn; exact Hl|apply limbs_repeat0]|].
  rewrite app_length, firstn_length, repeat_length. lia.
Qed.
Lemma pop_zeros_snoc : forall l x, pop_zeros (l ++ [x]) = if x =? 0 then pop_zeros l else l ++ [x].
Proof.
  intros l x. unfold pop_zeros. rewrite rev_app_distr. cbn [rev app drop_zeros]. destruct (x =? 0); [reflexivity|].
  cbn [rev]. rewrite rev_involutive. reflexivity.
Qed.
Lemma pop_zeros_spec : forall l, limbs l -> limbs (pop_zeros l) /\ tight (pop_zeros l) /\ lval (pop_zeros l) = lval l.
Proof.
  induction l as [|x l IH] using rev_ind; intro Hl; [repeat split; [constructor|left; reflexivity]|].
  apply Forall_app in Hl. destruct Hl as [Hl Hx]. pose proof (Forall_inv Hx) as Bx. unfold limb in Bx. rewrite pop_zeros_snoc, lval_app, lval_single.
  destruct (Z.eqb_spec x 0) as [->|N].
  - rewrite Z.mul_0_r, Z.add_0_r. exact (IH Hl).
  - split; [apply limbs_app; [exact Hl|constructor; [exact Bx|constructor]]|]. rewrite lval_app, lval_single. split; [|reflexivity].
    right. rewrite nbits_app. change (nbits [x]) with 128. replace (nbits l + 128 - 128) with (nbits l) by lia. rewrite lval_app, lval_single.
    pose proof (lval_nonneg l Hl). assert (0 < 2 ^ nbits l) by (apply Z.pow_pos_nonneg; [lia|apply nbits_nonneg]). nia.
Qed.
Lemma mul_into_spec : forall scratch a b, limbs scratch -> limbs a -> limbs b -> nbits a + nbits b <= 2 ^ 31 - 2 ->
  exists r, mul_into scratch a b = Ret r /\ limbs r /\ tight r /\ lval r = lval a * lval b.
Proof.
  intros scratch a b Hs Ha Hb HB. unfold mul_into. change LIMB_BITS with 128.
  assert (N0 : 0 <= len a + len b) by (unfold len; lia).
  destruct (resize_spec scratch (len a + len b) Hs N0) as [R1 R2]. set (s := resize scratch (len a + len b)) in *.
  assert (Nb : nbits s = nbits a + nbits b) by (unfold nbits, nlimbs, len in *; lia).
  assert (Ep : (len a + len b) * 128 = nbits a + nbits b) by (unfold nbits, nlimbs, len in *; lia). rewrite Ep.
  pose proof (nbits_nonneg a). pose proof (nbits_nonneg b). pose proof (lval_bound a Ha). pose proof (lval_bound b Hb).
  assert (Hv : 0 <= lval a * lval b < 2 ^ (nbits a + nbits b)).
  { rewrite Z.pow_add_r by assumption. split; [apply Z.mul_nonneg_nonneg; lia|]. apply Z.mul_lt_mono_nonneg; lia. }
  assert (Hsh : Z.max 0 (bitlen (lval a * lval b) - (nbits a + nbits b)) = 0).
  { pose proof (proj2 (bitlen_le (lval a * lval b) (nbits a + nbits b) ltac:(lia) ltac:(lia)) ltac:(lia)). lia. }
  pose proof (mul_spec s 0 a b (nbits a + nbits b) R1 Ha Hb ltac:(unfold len in *; lia) ltac:(lia) ltac:(lia)) as M. cbv zeta in M.
  rewrite Hsh in M. destruct (M ltac:(lia) ltac:(lia) ltac:(lia)) as [d [E [Bd [_ Vd]]]]. rewrite E. cbn [bind].
  destruct (pop_zeros_spec d Bd) as [P1 [P2 P3]]. eexists. split; [reflexivity|]. split; [exact P1|]. split; [exact P2|].
  rewrite P3, Vd, Z.pow_0_r, Z.div_1_r. reflexivity.
Qed.
Lemma pow5_bits : forall k, 0 <= k -> 2 * k <= bitlen (5 ^ k) - 1 /\ 3 * bitlen (5 ^ k) <= 7 * k + 3.
Proof.
  intros k Hk. assert (P : 0 < 5 ^ k) by (apply Z.pow_pos_nonneg; lia). pose proof (bitlen_spec _ P) as [B1 B2]. split.
  - assert (2 ^ (2 * k) <= 5 ^ k) by (rewrite Z.pow_mul_r by lia; apply Z.pow_le_mono_l; lia).
    assert (2 * k < bitlen (5 ^ k)) by (apply (Z.pow_lt_mono_r_iff 2); [lia|apply bitlen_nonneg|lia]). lia.
  - assert (X : (5 ^ k) ^ 3 <= 2 ^ (7 * k)).
    { rewrite <- Z.pow_mul_r by lia. replace (k * 3) with (3 * k) by lia. rewrite !Z.pow_mul_r by lia. apply Z.pow_le_mono_l. lia. }
    assert (Y : 2 ^ (3 * (bitlen (5 ^ k) - 1)) <= 2 ^ (7 * k)).
    { assert (0 <= bitlen (5 ^ k) - 1).
      { destruct (Z.eq_dec (bitlen (5 ^ k)) 0) as [E|]; [|pose proof (bitlen_nonneg (5 ^ k)); lia]. exfalso. pose proof (proj1 (bitlen_zero (5 ^ k) ltac:(lia)) E). lia. }
      eapply Z.le_trans; [|exact X]. replace (3 * (bitlen (5 ^ k) - 1)) with ((bitlen (5 ^ k) - 1) * 3) by lia. rewrite Z.pow_mul_r by lia.
      apply Z.pow_le_mono_l. split; [apply Z.pow_nonneg; lia|exact B1]. }
    apply Z.pow_le_mono_r_iff in Y; lia.
Qed.
Lemma pow5_nbits : forall l e, limbs l -> tight l -> 0 <= e -> lval l = 5 ^ e -> 3 * nbits l <= 7 * e + 384.
Proof.
  intros l e Hl Ht He V. pose proof (tight_bits l Hl Ht) as B. rewrite V in B. pose proof (pow5_bits e He). lia.
Qed.
Lemma pow5_loop_spec : forall fuel power r rs p5 ps q e, limbs r -> limbs rs -> limbs p5 -> limbs ps -> tight r -> tight p5 ->
  lval r = 5 ^ e -> lval p5 = 5 ^ (4 * q) -> 0 <= e -> 1 <= q -> 0 <= power < 2 ^ (Z.of_nat fuel - 1) -> e + 8 * q * power <= 2 ^ 28 ->
  exists r' rs' p5' ps', pow5_loop fuel power r rs p5 ps = Ret (r', rs', p5', ps') /\ limbs r' /\ limbs rs' /\ limbs p5' /\ limbs ps' /\
    tight r' /\ lval r' = 5 ^ (e + 8 * q * power).
Proof.
  induction fuel as [|fuel IH]; intros power r rs p5 ps q e Hr Hrs Hp Hps Tr Tp Vr Vp He Hq Hpow HB.
  { exfalso. change (2 ^ (Z.of_nat 0 - 1)) with 0 in Hpow. lia. }
  cbn [pow5_loop]. destruct (Z.ltb_spec 0 power) as [P|P].
  - assert (Hq8 : 8 * q <= 8 * q * power) by nia.
    pose proof (pow5_nbits p5 (4 * q) Hp Tp ltac:(lia) Vp) as Np.
    destruct (mul_into_spec ps p5 p5 Hps Hp Hp ltac:(lia)) as [p5' [E1 [B1 [T1 V1]]]]. rewrite E1. cbn [bind].
    assert (V1' : lval p5' = 5 ^ (8 * q)) by (rewrite V1, Vp, <- Z.pow_add_r by lia; f_equal; lia).
    assert (V1'' : lval p5' = 5 ^ (4 * (2 * q))) by (rewrite V1'; f_equal; lia).
    rewrite Z.shiftr_div_pow2 by lia. change (2 ^ 1) with 2.
    assert (Hl : Z.land power 1 = power mod 2) by (change 1 with (Z.ones 1) at 1; rewrite Z.land_ones by lia; reflexivity).
    rewrite Hl. pose proof (Z.div_mod power 2 ltac:(lia)) as Dm. pose proof (Z.mod_pos_bound power 2 ltac:(lia)) as Bm.
    assert (Hp2 : 0 <= power / 2 < 2 ^ (Z.of_nat fuel - 1)).
    { split; [apply Z.div_pos; lia|]. destruct fuel as [|fuel]; [exfalso; change (2 ^ (Z.of_nat 1 - 1)) with 1 in Hpow; lia|].
      replace (Z.of_nat (S (S fuel)) - 1) with (Z.of_nat (S fuel) - 1 + 1) in Hpow by lia.
      rewrite Z.pow_add_r in Hpow by lia. lia. }
    destruct (Z.eqb_spec (power mod 2) 0) as [Z0|Z1]; cbn [negb].
    + assert (Eq8 : e + 8 * (2 * q) * (power / 2) = e + 8 * q * power) by (clear - Dm Z0; rewrite Dm at 2; rewrite Z0; ring).
      cbn [bind]. destruct (IH (power / 2) r rs p5' p5 (2 * q) e Hr Hrs B1 Hp Tr T1 Vr V1'' He ltac:(lia) Hp2 ltac:(lia)) as [a [b [c [d [E [X1 [X2 [X3 [X4 [X5 X6]]]]]]]]]].
      exists a, b, c, d. split; [exact E|]. repeat (split; [assumption|]). rewrite X6. f_equal. exact Eq8.
    + assert (Eq8 : e + 8 * q + 8 * (2 * q) * (power / 2) = e + 8 * q * power) by (clear - Dm Z1 Bm; replace (power mod 2) with 1 in Dm by lia; rewrite Dm at 2; ring).
      pose proof (pow5_nbits p5' (8 * q) B1 T1 ltac:(lia) V1') as Np'. pose proof (pow5_nbits r e Hr Tr He Vr) as Nr.
      destruct (mul_into_spec rs r p5' Hrs Hr B1 ltac:(lia)) as [r' [E2 [B2 [T2 V2]]]]. rewrite E2. cbn [bind].
      assert (V2' : lval r' = 5 ^ (e + 8 * q)) by (rewrite V2, Vr, V1', <- Z.pow_add_r by lia; reflexivity).
      destruct (IH (power / 2) r' r p5' p5 (2 * q) (e + 8 * q) B2 Hr B1 Hp T2 T1 V2' V1'' ltac:(lia) ltac:(lia) Hp2 ltac:(lia)) as [a [b [c [d [E [X1 [X2 [X3 [X4 [X5 X6]]]]]]]]]].
      exists a, b, c, d. split; [exact E|]. repeat (split; [assumption|]). rewrite X6. f_equal. exact Eq8.
  - assert (power = 0) as -> by lia. exists r, rs, p5, ps. split; [reflexivity|]. repeat (split; [assumption|]). rewrite Vr. f_equal. lia.
Qed.
Theorem pow5_full_spec : forall k, Z.abs k <= 2 ^ 28 ->
  exists r rs p5 ps, pow5_full k = Ret (r, rs, p5, ps) /\ limbs r /\ limbs rs /\ limbs p5 /\ limbs ps /\ tight r /\ lval r = 5 ^ Z.abs k.
Proof.
  intros k Hk. unfold pow5_full. rewrite chk32_ret by lia. cbn [bind]. change (get FIRST_EIGHT_POWERS 4) with (Ret 625). cbn [bind].
  set (a := Z.abs k) in *. assert (Ha : 0 <= a) by (unfold a; lia). clearbody a.
  assert (Hl : Z.land a 7 = a mod 8) by (change 7 with (Z.ones 3); rewrite Z.land_ones by lia; reflexivity). rewrite Hl.
  rewrite Z.shiftr_div_pow2 by lia. change (2 ^ 3) with 8.
  pose proof (Z.div_mod a 8 ltac:(lia)) as Dm. pose proof (Z.mod_pos_bound a 8 ltac:(lia)) as Bm.
  assert (G : exists r0, get FIRST_EIGHT_POWERS (a mod 8) = Ret r0 /\ r0 = 5 ^ (a mod 8) /\ 1 <= r0 <= 78125).
  { assert (C : a mod 8 = 0 \/ a mod 8 = 1 \/ a mod 8 = 2 \/ a mod 8 = 3 \/ a mod 8 = 4 \/ a mod 8 = 5 \/ a mod 8 = 6 \/ a mod 8 = 7) by lia.
    destruct C as [->|[->|[->|[->|[->|[->|[->| ->]]]]]]]; eexists; (split; [reflexivity|]); (split; [reflexivity|]); (split; vm_compute; discriminate). }
  destruct G as [r0 [-> [V0 B0]]]. cbn [bind].
  assert (L1 : forall x, 1 <= x <= 78125 -> limbs [x] /\ tight [x]).
  { intros x Hx. split; [constructor; [unfold limb; lia|constructor]|]. right. change (nbits [x]) with 128. cbn [lval]. change (2 ^ (128 - 128)) with 1. lia. }
  destruct (L1 r0 B0) as [A1 A2]. destruct (L1 625 ltac:(lia)) as [A3 A4].
  assert (Hd : 0 <= a / 8 < 2 ^ (Z.of_nat 64 - 1)).
  { split; [apply Z.div_pos; lia|]. apply Z.le_lt_trans with a; [apply Z.div_le_upper_bound; lia|]. apply Z.le_lt_trans with (2 ^ 28); [exact Hk|reflexivity]. }
  destruct (pow5_loop_spec 64 (a / 8) [r0] [] [625] [] 1 (a mod 8) A1 (Forall_nil _) A3 (Forall_nil _) A2 A4) as [r [rs [p5 [ps [E [X1 [X2 [X3 [X4 [X5 X6]]]]]]]]]];
    [rewrite lval_single; exact V0|reflexivity|lia|lia|exact Hd|lia|].
  exists r, rs, p5, ps. split; [exact E|]. repeat (split; [assumption|]). rewrite X6. f_equal. lia.
Qed.
