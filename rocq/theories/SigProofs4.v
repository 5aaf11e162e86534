(** * SigProofs4.v -- multi-limb division and signed addition *)
From Coq Require Import ZArith List Bool Lia ZifyBool.
From Verif Require Import Machine Sig SpecSig Limbs SigProofs SigProofs2 SigProofs3.
Import ListNotations.
Local Open Scope Z_scope.

Ltac Zify.zify_post_hook ::= idtac.
Ltac dlia := Z.to_euclidean_division_equations; lia.

Lemma loss_of_scale : forall r d k, 0 < k -> loss_of (r * k) (d * k) = loss_of r d.
Proof.
  intros r d k Hk. unfold loss_of.
  assert ((r * k =? 0) = (r =? 0)) as ->.
  { destruct (Z.eqb_spec r 0); [subst; reflexivity|]. apply Z.eqb_neq. nia. }
  replace (2 * (r * k)) with (2 * r * k) by ring.
  rewrite <- Zmult_compare_compat_r by lia. reflexivity.
Qed.

Lemma lost_fraction_spec : forall a b r d, limbs a -> limbs b -> length a = length b ->
  lval a = 2 * r -> lval b = d -> 0 < d ->
  lost_fraction a b = Ret (loss_of r d).
Proof.
  intros a b r d Ha Hb Hl Hr Hd Hdp. unfold lost_fraction. rewrite cmp_spec by assumption. cbn [bind].
  rewrite Hr, Hd. unfold loss_of. rewrite is_all_zeros_spec by assumption. rewrite Hr.
  destruct (Z.eqb_spec r 0) as [->|Hn].
  - change (2 * 0) with 0. rewrite (proj2 (Z.compare_lt_iff 0 d)) by lia. reflexivity.
  - destruct (2 * r ?= d); try reflexivity. destruct (Z.eqb_spec (2 * r) 0); [lia|reflexivity].
Qed.

Lemma rev_last_div : forall l s, limbs l -> (0 < length l)%nat -> 0 <= s < 128 ->
  exists x r, rev l = x :: r /\ limb x /\ x / 2 ^ s = lval l / 2 ^ (nbits l - 128 + s).
Proof.
  intros l s Hl Hn Hs. destruct l as [|y l] using rev_ind; [cbn in Hn; lia|]. clear IHl.
  rewrite rev_app_distr. cbn [rev app]. exists y, (rev l). split; [reflexivity|].
  apply Forall_app in Hl. destruct Hl as [Hl Hy]. inversion Hy as [|? ? Hy' _]; subst. split; [assumption|].
  rewrite lval_app, lval_single.
  assert (nbits (l ++ [y]) = nbits l + 128) as -> by (unfold nbits, nlimbs; rewrite app_length; cbn [length]; lia).
  replace (nbits l + 128 - 128 + s) with (nbits l + s) by lia.
  assert (0 <= nbits l) by (unfold nbits, nlimbs; lia).
  rewrite Z.pow_add_r by lia. rewrite <- Z.div_div by (pose proof (pow2_gt0 (nbits l)); pose proof (pow2_gt0 s); lia).
  rewrite Z.add_comm, Z.mul_comm, Z.div_add_l by (pose proof (pow2_gt0 (nbits l)); lia).
  rewrite (Z.div_small (lval l)) by (apply lval_bound; assumption). rewrite Z.add_0_r. reflexivity.
Qed.

(** the short division paths *)
Lemma short_div_spec : forall q a b ol db half, limbs a -> limbs b -> length a = length b -> length q = length a ->
  half = 16 \/ half = 32 \/ half = 64 ->
  2 <= db -> 2 * db <= half -> 1 <= ol -> ol <= 2 ^ 31 - 1 -> (0 < length a)%nat ->
  lval b mod 2 ^ (ol - 1) = 0 ->
  2 ^ (db - 1) <= lval b / 2 ^ (ol - 1) < 2 ^ db ->
  let n := lval a * 2 ^ (db - 1) in
  let d := lval b / 2 ^ (ol - 1) in
  exists r, short_div q a b ol db half = Ret (r, loss_of (n mod d) d) /\
    limbs r /\ length r = length a /\ lval r = n / d.
Proof.
  intros q a b ol db half Ha Hb Hl Hq Hhalf Hdb Hdb2 Hol Hol2 Hlen Hmod Hd n d. unfold short_div.
  assert (half <= 64) as Hh64 by lia.
  rewrite usub_ret by lia. cbn [bind].
  destruct (shift_right_spec b 0 (ol - 1) Hb) as [b' [Eb [Hb' [Hlb' Hvb']]]]; [lia|lia|].
  rewrite Eb. cbn [bind]. fold d in Hvb', Hd.
  assert (2 ^ db <= 2 ^ 32) as Hdb32 by (apply Z.pow_le_mono_r; lia).
  assert (2 ^ db <= 2 ^ half) as Hdbh by (apply Z.pow_le_mono_r; lia).
  rewrite get_ret by (rewrite len_eq; lia). cbn [bind]. change (Z.to_nat 0) with 0%nat.
  assert (nth 0 b' 0 = d) as ->.
  { pose proof (lval_nth b' 0%nat Hb') as X. rewrite X. change (128 * Z.of_nat 0) with 0. change (2 ^ 0) with 1.
    rewrite Z.div_1_r, Hvb'. apply Z.mod_small. clear - Hd Hdb32 Hdb. pose proof (pow2_gt0 (db - 1)). lia. }
  pose proof (pow2_gt0 (db - 1) ltac:(lia)) as Hpdb.
  assert (0 < d) as Hd0 by lia.
  rewrite (Z.mod_small d) by lia.
  destruct (rev_last_div a (128 - (db - 1)) Ha Hlen ltac:(lia)) as [x [r [Er [Hx Hxv]]]].
  rewrite Er. cbn [bind]. rewrite usub_ret by lia. cbn [bind]. unfold LIMB_BITS. rewrite usub_ret by lia. cbn [bind].
  rewrite shr128_ret by lia. cbn [bind]. rewrite Z.shiftr_div_pow2 by lia. rewrite Hxv.
  replace (nbits a - 128 + (128 - (db - 1))) with (nbits a - (db - 1)) by lia.
  assert (128 <= nbits a) as Hnb by (unfold nbits, nlimbs; lia).
  set (rem := lval a / 2 ^ (nbits a - (db - 1))).
  pose proof (lval_bound a Ha) as Hab.
  assert (2 ^ nbits a = 2 ^ (nbits a - (db - 1)) * 2 ^ (db - 1)) as Hsplit by (rewrite <- Z.pow_add_r by lia; f_equal; lia).
  pose proof (pow2_gt0 (nbits a - (db - 1)) ltac:(lia)) as Hpn.
  assert (0 <= rem < 2 ^ (db - 1)) as Hrem.
  { unfold rem. split; [apply Z.div_pos; lia|]. apply Z.div_lt_upper_bound; [lia|]. lia. }
  rewrite (Z.mod_small rem) by lia.
  destruct (shift_left_spec a 0 (db - 1) Ha) as [a' [Ea [Ha' [Hla' Hva']]]]; [lia|lia|].
  rewrite Ea. cbn [bind]. fold n in Hva'.
  assert (rem * 2 ^ nbits a + lval a' = n) as Hn.
  { rewrite Hva'. unfold rem, n. rewrite Hsplit.
    set (B := 2 ^ (db - 1)) in *. set (C := 2 ^ (nbits a - (db - 1))) in *.
    rewrite Z.mul_mod_distr_r by lia. pose proof (Z.div_mod (lval a) C ltac:(lia)).
    rewrite H at 3. ring. }
  assert (nbits a' = nbits a) as Hna' by (unfold nbits, nlimbs; rewrite Hla'; reflexivity).
  match goal with |- context [each_chunk _ _ ?g _] => set (f := g) end.
  assert (divides_by d half f) as Hf.
  { intros c s Hc Hs. unfold f. cbv zeta. rewrite (Z.mod_small c) by lia.
    rewrite lor_shiftl_add by lia.
    destruct (Z.eqb_spec d 0); [lia|].
    pose proof (div_digit_bound d s c (2 ^ half) Hd0 Hs Hc) as Hq'. rewrite (Z.mod_small (_ / _)) by exact Hq'.
    rewrite (Z.mod_small (_ mod _)); [reflexivity|]. pose proof (Z.mod_pos_bound (s * 2 ^ half + c) d Hd0). lia. }
  destruct (each_chunk_div d half f a' rem Hd0 ltac:(lia)) as [qq [Eq [Hqq [Hlq Hvq]]]];
    [destruct Hhalf as [->|[->| ->]]; reflexivity|assumption|assumption|lia|].
  rewrite Eq. cbn [bind]. rewrite Hna', Hn in *.
  rewrite !len_eq. rewrite Hlq, Hla', Hq, Z.eqb_refl. cbn [assertb].
  pose proof (Z.mod_pos_bound n d Hd0) as Hm.
  rewrite shl128_ret by lia. cbn [bind]. rewrite Z.shiftl_mul_pow2 by lia.
  rewrite wrap128_id by (unfold limb; lia).
  rewrite (lost_fraction_spec [n mod d * 2 ^ 1] [d] (n mod d) d);
    [|apply limb_1; unfold limb; lia|apply limb_1; unfold limb; lia|reflexivity|rewrite lval_single; lia|apply lval_single|assumption].
  cbn [bind]. exists qq. repeat split; try assumption. lia.
Qed.

(** the bit-by-bit division loop *)
Definition long_div (q a b : list Z) (p : Z) : outcome (list Z * list Z) :=
  for_each (rev (zrange 0 p)) (fun bit '(quotient, dividend) =>
          let! c := cmp dividend b in
          let! '(quotient, dividend) :=
            (match c with
             | Lt => Ret (quotient, dividend)
             | _ =>
               let! '(dividend, _) := sub dividend b 0 in
               let! quotient := set_bit quotient bit in
               Ret (quotient, dividend)
             end) in
          let! '(dividend, _) := shift_left dividend 0 1 in
          Ret (quotient, dividend)) (q, a).

Lemma lor_pow2_high : forall v k i, 0 <= i < k -> Z.lor (v * 2 ^ k) (2 ^ i) = v * 2 ^ k + 2 ^ i.
Proof.
  intros v k i H. rewrite <- Z.shiftl_mul_pow2 by lia. rewrite lor_shiftl_add; [|lia|].
  - rewrite Z.shiftl_mul_pow2 by lia. reflexivity.
  - split; [apply Z.pow_nonneg; lia|]. apply Z.pow_lt_mono_r; lia.
Qed.

Lemma long_div_spec : forall q a b p, limbs q -> limbs a -> limbs b -> length a = length b -> length q = length a ->
  lval q = 0 -> 0 <= p <= nbits a - 1 -> 0 < lval b < 2 ^ p -> lval a < 2 * lval b ->
  exists q' a', long_div q a b p = Ret (q', a') /\ limbs q' /\ limbs a' /\ length q' = length a /\ length a' = length a /\
    2 * lval q' * lval b + lval a' = lval a * 2 ^ p /\ 0 <= lval a' < 2 * lval b.
Proof.
  intros q a b p Hq Ha Hb Hl Hlq Hq0 Hp Hbp Hab. unfold long_div.
  match goal with |- context [for_each _ ?f _] => set (body := f) end.
  set (B := lval b) in *.
  assert (2 * B <= 2 ^ nbits a) as HBn.
  { apply Z.le_trans with (2 * 2 ^ p); [lia|]. rewrite <- Z.pow_succ_r by lia. apply Z.pow_le_mono_r; lia. }
  destruct (for_each_down_inv _
    (fun i '(q', a') => limbs q' /\ limbs a' /\ length q' = length a /\ length a' = length a /\
       (exists u, lval q' = u * 2 ^ Z.of_nat i) /\
       2 * lval q' * B + lval a' * 2 ^ Z.of_nat i = lval a * 2 ^ p /\ 0 <= lval a' < 2 * B)
    body (Z.to_nat p) (q, a)) as [[q' a'] [E [H1 [H2 [H3 [H4 [_ [H5 H6]]]]]]]].
  - split; [assumption|]. split; [assumption|]. split; [assumption|]. split; [reflexivity|].
    split; [exists 0; lia|]. rewrite Hq0. replace (Z.of_nat (Z.to_nat p)) with p by lia.
    pose proof (lval_nonneg a Ha). split; lia.
  - intros i [q' a'] Hi [G1 [G2 [G3 [G4 [[u Gu] [G5 G6]]]]]].
    unfold body. rewrite cmp_spec by (assumption || lia). cbn [bind]. fold B.
    assert (nbits a' = nbits a) as Hna by (unfold nbits, nlimbs; rewrite G4; reflexivity).
    assert (nbits q' = nbits a) as Hnq by (unfold nbits, nlimbs; rewrite G3; reflexivity).
    assert (Z.of_nat (S i) = Z.of_nat i + 1) as HSi by lia. rewrite HSi in *.
    assert (2 ^ (Z.of_nat i + 1) = 2 ^ Z.of_nat i * 2) as Hpi by (rewrite Z.pow_add_r by lia; reflexivity).
    rewrite Hpi in *. set (P := 2 ^ Z.of_nat i) in *.
    assert (0 < P) as HP by (apply pow2_gt0; lia).
    destruct (lval a' ?= B) eqn:Ec.
    1,3: assert (B <= lval a') as HBa by (first [apply Z.compare_eq_iff in Ec | rewrite Z.compare_gt_iff in Ec]; lia);
      destruct (sub_nocarry a' b 0 G2 Hb ltac:(lia) ltac:(lia) ltac:(fold B; lia)) as [s [Es [Hs [Hls Hvs]]]];
      rewrite Es; cbn [bind];
      destruct (set_bit_spec q' (Z.of_nat i) G1 ltac:(lia)) as [q2 [Eq2 [Hq2 [Hlq2 Hvq2]]]];
      rewrite Eq2; cbn [bind];
      destruct (shift_left_exact s 0 1 Hs ltac:(lia) ltac:(lia)) as [s2 [Es2 [Hs2 [Hls2 Hvs2]]]];
        [replace (nbits s) with (nbits a) by (unfold nbits, nlimbs; rewrite Hls, G4; reflexivity); change (2 ^ 1) with 2; fold B in Hvs; lia|];
      rewrite Es2; cbn [bind]; eexists; split; [reflexivity|];
      (split; [assumption|]); (split; [assumption|]); (split; [lia|]); (split; [lia|]);
      rewrite Gu in Hvq2; rewrite <- Hpi in Hvq2; unfold P in Hvq2; rewrite lor_pow2_high in Hvq2 by lia;
      rewrite Hpi in Hvq2; fold P in Hvq2; fold B in Hvs; change (2 ^ 1) with 2 in Hvs2;
      (split; [exists (u * 2 + 1); rewrite Hvq2; ring|]); rewrite Hvs2, Hvs, Hvq2; rewrite Gu in G5; split; [rewrite <- G5; ring|lia].
    assert (lval a' < B) as HBa by (rewrite Z.compare_lt_iff in Ec; exact Ec). cbn [bind].
    destruct (shift_left_exact a' 0 1 G2 ltac:(lia) ltac:(lia)) as [s2 [Es2 [Hs2 [Hls2 Hvs2]]]].
    { rewrite Hna. change (2 ^ 1) with 2. lia. }
    rewrite Es2. cbn [bind]. eexists. split; [reflexivity|].
    split; [assumption|]. split; [assumption|]. split; [lia|]. split; [lia|].
    split; [exists (u * 2); rewrite Gu; ring|]. rewrite Hvs2. change (2 ^ 1) with 2. split; [rewrite <- G5; ring|lia].
  - replace (zrange 0 p) with (zrange 0 (Z.of_nat (Z.to_nat p))) by (f_equal; lia).
    rewrite E. exists q', a'. change (2 ^ Z.of_nat 0) with 1 in H5. rewrite Z.mul_1_r in H5. auto 10.
Qed.

Lemma limbs_for_bits_eq : forall p n, 128 * n - 128 < p <= 128 * n -> limbs_for_bits p = n.
Proof. intros p n H. unfold limbs_for_bits, LIMB_BITS. dlia. Qed.

Theorem div_spec : forall q e a b p, limbs q -> limbs a -> limbs b ->
  length a = length b -> length q = length a ->
  nbits a - 128 < p < nbits a -> p <= 2 ^ 31 - 1 ->
  0 < lval a < 2 ^ p -> 0 < lval b < 2 ^ p ->
  - 2 ^ 31 <= e - p -> e + p <= 2 ^ 31 - 1 ->
  exists r s, 0 <= s /\
    div q e a b p = Ret (r, e + (p - 1) - s, loss_of ((lval a * 2 ^ s) mod lval b) (lval b)) /\
    limbs r /\ length r = length a /\ lval r = (lval a * 2 ^ s) / lval b /\
    2 ^ (p - 1) <= lval r < 2 ^ p.
Proof.
  intros q e a b p Hq Ha Hb Hl Hlq Hp Hpm Hav Hbv He1 He2. unfold div.
  set (A := lval a) in *. set (B := lval b) in *.
  assert (0 < p) as Hp0 by (unfold nbits, nlimbs in Hp; destruct (Z_le_gt_dec p 0); [|lia];
     assert (2 ^ p <= 1) by (apply (Z.pow_le_mono_r 2 p 0); lia); lia).
  rewrite !omsb_spec by assumption. fold A B.
  pose proof (bitlen_spec A ltac:(lia)) as HA. pose proof (bitlen_spec B ltac:(lia)) as HB.
  pose proof (bitlen_nonneg A) as NA. pose proof (bitlen_nonneg B) as NB.
  assert (bitlen A <= p) as LA by (apply bitlen_le; lia). assert (bitlen B <= p) as LB by (apply bitlen_le; lia).
  assert (1 <= bitlen A) as PA by (rewrite bitlen_pos by lia; pose proof (Z.log2_nonneg A); lia).
  assert (1 <= bitlen B) as PB by (rewrite bitlen_pos by lia; pose proof (Z.log2_nonneg B); lia).
  set (la := bitlen A) in *. set (lb := bitlen B) in *.
  assert (2 ^ p * 2 <= 2 ^ nbits a) as Hpn by (replace (2 ^ p * 2) with (2 ^ (p + 1)) by (rewrite Z.pow_add_r by lia; reflexivity); apply Z.pow_le_mono_r; lia).
  assert (nbits b = nbits a) as Hnb by (unfold nbits, nlimbs; rewrite Hl; reflexivity).
  rewrite usub_ret by lia. cbn [bind].
  assert (HBs : 2 ^ (p - 1) <= B * 2 ^ (p - lb) < 2 ^ p).
  { replace (2 ^ (p - 1)) with (2 ^ (lb - 1) * 2 ^ (p - lb)) by (rewrite <- Z.pow_add_r by lia; f_equal; lia).
    replace (2 ^ p) with (2 ^ lb * 2 ^ (p - lb)) by (rewrite <- Z.pow_add_r by lia; f_equal; lia).
    pose proof (pow2_gt0 (p - lb)). nia. }
  assert (HAs : 2 ^ (p - 1) <= A * 2 ^ (p - la) < 2 ^ p).
  { replace (2 ^ (p - 1)) with (2 ^ (la - 1) * 2 ^ (p - la)) by (rewrite <- Z.pow_add_r by lia; f_equal; lia).
    replace (2 ^ p) with (2 ^ la * 2 ^ (p - la)) by (rewrite <- Z.pow_add_r by lia; f_equal; lia).
    pose proof (pow2_gt0 (p - la)). nia. }
  destruct (shift_left_exact b 0 (p - lb) Hb ltac:(lia) ltac:(lia)) as [b' [Eb [Hb' [Hlb' Hvb']]]]; [fold B; rewrite Hnb; lia|].
  rewrite Eb. cbn [bind]. fold B in Hvb'.
  rewrite as_i32_id by lia. rewrite chk32_ret by lia. cbn [bind].
  rewrite usub_ret by lia. cbn [bind].
  destruct (shift_left_exact a (e + (p - lb)) (p - la) Ha ltac:(lia) ltac:(lia)) as [a' [Ea [Ha' [Hla' Hva']]]]; [fold A; lia|].
  rewrite Ea. cbn [bind]. fold A in Hva'.
  set (A' := A * 2 ^ (p - la)) in *. set (B' := B * 2 ^ (p - lb)) in *.
  pose proof (pow2_gt0 (p - 1) ltac:(lia)) as Hpp1.
  assert (2 ^ p = 2 * 2 ^ (p - 1)) as Hp2 by (rewrite <- Z.pow_succ_r by lia; f_equal; lia).
  (* the shifted problem and the original one have the same quotient and fraction *)
  assert (Hred : forall c, 0 <= c -> let s := p - 1 + lb - la + c in
     0 <= s /\ (A' * 2 ^ c * 2 ^ (p - 1)) / B' = (A * 2 ^ s) / B /\
     loss_of ((A' * 2 ^ c * 2 ^ (p - 1)) mod B') B' = loss_of ((A * 2 ^ s) mod B) B).
  { intros c Hc s. split; [unfold s; lia|].
    assert (A' * 2 ^ c * 2 ^ (p - 1) = A * 2 ^ s * 2 ^ (p - lb)) as ->.
    { unfold A', s. rewrite <- !Z.mul_assoc. f_equal. rewrite <- !Z.pow_add_r by lia. f_equal. lia. }
    unfold B'. pose proof (pow2_gt0 (p - lb) ltac:(lia)). split.
    - apply Z.div_mul_cancel_r; lia.
    - rewrite Z.mul_mod_distr_r by lia. apply loss_of_scale. lia. }
  destruct (olsb_spec b' Hb') as [[Hb0 _]|[Hol [m [Hm Hbm]]]]; [lia|].
  set (ol := olsb b') in *.
  assert (nbits b' = nbits a) as Hnb' by (unfold nbits, nlimbs; rewrite Hlb', Hl; reflexivity).
  assert (nbits a' = nbits a) as Hna' by (unfold nbits, nlimbs; rewrite Hla'; reflexivity).
  assert (2 ^ (ol - 1) <= B') as Hol1.
  { rewrite <- Hvb', Hbm. pose proof (pow2_gt0 (ol - 1)). nia. }
  assert (ol <= p) as Hol2.
  { destruct (Z_le_gt_dec ol p); [assumption|]. assert (2 ^ p <= 2 ^ (ol - 1)) by (apply Z.pow_le_mono_r; lia). lia. }
  destruct (ol =? p) eqn:Eol.
  { (* the divisor is a power of two *)
    assert (ol = p) as Eolp by lia. rewrite Eolp in *.
    assert (B' = 2 ^ (p - 1)) as HBp by (rewrite Hvb' in Hbm; clearbody B'; clear - Hbm Hm HBs Hp2 Hpp1; assert (m = 0) by nia; subst m; lia).
    rewrite !len_eq, Hlq, Hla', Z.eqb_refl. cbn [assertb].
    destruct (Hred 0 ltac:(lia)) as [Hs [Hq1 Hq2]]. set (s := p - 1 + lb - la + 0) in *.
    change (2 ^ 0) with 1 in *. rewrite Z.mul_1_r in *. rewrite HBp in *.
    rewrite Z.mod_mul in Hq2 by lia. rewrite Z.div_mul in Hq1 by lia.
    exists a', s. split; [assumption|]. rewrite <- Hq2, <- Hq1.
    split; [f_equal; f_equal; f_equal; unfold s; lia|].
    split; [assumption|]. split; [assumption|]. split; [assumption|]. lia. }
  rewrite cmp_spec by (assumption || lia). cbn [bind]. rewrite Hva', Hvb'.
  (* after the optional extra shift of the dividend *)
  assert (exists c a2, (c = 0 \/ c = 1) /\ limbs a2 /\ length a2 = length a /\ lval a2 = A' * 2 ^ c /\ B' <= lval a2 < 2 * B' /\
    (match A' ?= B' with
      | Lt =>
         let! '(dividend, exp) := shift_left a' (e + (p - lb) - (p - la)) 1 in
         let! c := cmp dividend b' in
         match c with
         | Lt => Panic
         | _ => Ret (dividend, exp)
         end
      | _ => Ret (a', e + (p - lb) - (p - la))
      end) = Ret (a2, e + (p - lb) - (p - la) - c)) as [c [a2 [Hc [Ha2 [Hla2 [Hva2 [Hr2 E2]]]]]]].
  { destruct (A' ?= B') eqn:Ec.
    - exists 0, a'. change (2 ^ 0) with 1. apply Z.compare_eq_iff in Ec. repeat split; try assumption; try lia.
      f_equal. f_equal. lia.
    - rewrite Z.compare_lt_iff in Ec.
      destruct (shift_left_exact a' (e + (p - lb) - (p - la)) 1 Ha' ltac:(lia) ltac:(lia)) as [a2 [E2 [Ha2 [Hla2 Hva2]]]].
      { change (2 ^ 1) with 2. rewrite Hna'; lia. }
      rewrite E2. cbn [bind]. rewrite cmp_spec by (assumption || lia). cbn [bind].
      exists 1, a2. rewrite Hva' in Hva2. change (2 ^ 1) with 2 in *. rewrite Hva2, Hvb'.
      split; [lia|]. split; [assumption|]. split; [lia|]. split; [reflexivity|]. split; [lia|].
      destruct (A' * 2 ?= B') eqn:Ec2; [reflexivity| |reflexivity]. rewrite Z.compare_lt_iff in Ec2. lia.
    - exists 0, a'. change (2 ^ 0) with 1. rewrite Z.compare_gt_iff in Ec. repeat split; try assumption; try lia.
      f_equal. f_equal. lia. }
  rewrite E2. cbn [bind]. clear E2.
  rewrite usub_ret by lia. cbn [bind]. rewrite usub_ret by lia. cbn [bind].
  destruct (Hred c ltac:(lia)) as [Hs [Hq1 Hq2]]. set (s := p - 1 + lb - la + c) in *. rewrite <- Hva2 in *.
  replace (e + (p - lb) - (p - la) - c) with (e + (p - 1) - s) by (unfold s; lia).
  assert (Hrange : 2 ^ (p - 1) <= (lval a2 * 2 ^ (p - 1)) / B' < 2 ^ p).
  { clear - Hr2 Hpp1 Hp2 HBs. clearbody B'. split; [apply Z.div_le_lower_bound; nia|apply Z.div_lt_upper_bound; nia]. }
  (* the short paths, all alike *)
  set (db := p - (ol - 1)).
  assert (HD : lval b' mod 2 ^ (ol - 1) = 0 /\ B' = (2 * m + 1) * 2 ^ (ol - 1) /\ lval b' / 2 ^ (ol - 1) = 2 * m + 1 /\
               2 ^ (db - 1) <= 2 * m + 1 < 2 ^ db).
  { pose proof (pow2_gt0 (ol - 1) ltac:(lia)) as Hpo. rewrite Hbm. rewrite Z.mod_mul, Z.div_mul by lia.
    split; [reflexivity|]. split; [rewrite <- Hvb'; assumption|]. split; [reflexivity|].
    assert (2 ^ (p - 1) = 2 ^ (db - 1) * 2 ^ (ol - 1)) as X1 by (rewrite <- Z.pow_add_r by (unfold db; lia); f_equal; unfold db; lia).
    assert (2 ^ p = 2 ^ db * 2 ^ (ol - 1)) as X2 by (rewrite <- Z.pow_add_r by (unfold db; lia); f_equal; unfold db; lia).
    rewrite Hvb' in Hbm. clear - Hbm X1 X2 HBs Hpo. clearbody B'. rewrite X1, X2, Hbm in HBs. nia. }
  destruct HD as [HD1 [HD2 [HD3 HD4]]].
  assert (Hshort : forall half, half = 16 \/ half = 32 \/ half = 64 -> 2 * db <= half ->
    exists r, short_div q a2 b' ol db half = Ret (r, loss_of ((A * 2 ^ s) mod B) B) /\
      limbs r /\ length r = length a /\ lval r = A * 2 ^ s / B).
  { intros half Hhalf Hdb.
    destruct (short_div_spec q a2 b' ol db half Ha2 Hb' ltac:(lia) ltac:(lia) Hhalf) as [r [Er [Hr [Hlr Hvr]]]];
      [unfold db; lia|assumption|lia|lia| |assumption|rewrite HD3; assumption|].
    { unfold nbits, nlimbs in Hp. lia. }
    rewrite HD3 in *. exists r. rewrite Er.
    assert (lval a2 * 2 ^ (p - 1) = lval a2 * 2 ^ (db - 1) * 2 ^ (ol - 1)) as Hsc.
    { rewrite <- Z.mul_assoc, <- Z.pow_add_r by (unfold db; lia). f_equal. f_equal. unfold db. lia. }
    pose proof (pow2_gt0 (ol - 1) ltac:(lia)) as Hpo.
    rewrite Hsc, HD2 in Hq1, Hq2. rewrite Z.div_mul_cancel_r in Hq1 by lia.
    rewrite Z.mul_mod_distr_r, loss_of_scale in Hq2 by lia.
    rewrite <- Hq1, <- Hq2. repeat split; [assumption|lia|assumption]. }
  assert (Hfin : forall r, lval r = A * 2 ^ s / B -> 2 ^ (p - 1) <= lval r < 2 ^ p) by (intros r ->; rewrite <- Hq1; assumption).
  destruct (db * 2 <=? 16) eqn:E16.
  { destruct (Hshort 16) as [r [Er [Hr [Hlr Hvr]]]]; [lia|lia|]. rewrite Er. cbn [bind]. exists r, s. auto 10. }
  destruct (db * 2 <=? 32) eqn:E32.
  { destruct (Hshort 32) as [r [Er [Hr [Hlr Hvr]]]]; [lia|lia|]. rewrite Er. cbn [bind]. exists r, s. auto 10. }
  destruct (db * 2 <=? 64) eqn:E64.
  { destruct (Hshort 64) as [r [Er [Hr [Hlr Hvr]]]]; [lia|lia|]. rewrite Er. cbn [bind]. exists r, s. auto 10. }
  (* long division *)
  rewrite (limbs_for_bits_eq p (Z.of_nat (length q))) by (unfold nbits, nlimbs in Hp; rewrite Hlq; lia).
  rewrite slice_to_ret by (rewrite len_eq; lia). cbn [bind].
  destruct (clear_spec q (length q) Hq ltac:(lia)) as [q0 [Eq0 [Hq0 [Hlq0 Hnq0]]]].
  rewrite Eq0. cbn [bind].
  assert (lval q0 = 0) as Hvq0.
  { rewrite <- (firstn_all q0). apply lval_firstn_zero; [lia|]. intros i Hi. rewrite Hnq0.
    destruct (Nat.ltb_spec i (length q)); [reflexivity|lia]. }
  match goal with |- context [for_each ?l ?f (q0, a2)] => change (for_each l f (q0, a2)) with (long_div q0 a2 b' p) end.
  assert (nbits a2 = nbits a) as Hna2 by (unfold nbits, nlimbs; rewrite Hla2; reflexivity).
  destruct (long_div_spec q0 a2 b' p Hq0 Ha2 Hb' ltac:(lia) ltac:(lia) Hvq0 ltac:(lia) ltac:(lia) ltac:(lia))
    as [q' [r' [El [G1 [G2 [G3 [G4 [G5 G6]]]]]]]].
  rewrite El. cbn [bind]. rewrite Hvb' in *.
  assert (lval a2 * 2 ^ p = 2 * (lval a2 * 2 ^ (p - 1))) as X by (rewrite Hp2; ring). rewrite X in G5.
  set (N := lval a2 * 2 ^ (p - 1)) in *.
  assert (exists h, lval r' = 2 * h) as [h Hh] by (exists (N - lval q' * B'); lia).
  assert (N = B' * lval q' + h) as HN by lia.
  assert (lval q' = N / B') as HQ by (apply (Z.div_unique N B' (lval q') h); [lia|assumption]).
  assert (h = N mod B') as HR by (apply (Z.mod_unique N B' (lval q') h); [lia|assumption]).
  rewrite (lost_fraction_spec r' b' h B') by (assumption || lia). cbn [bind].
  exists q', s. rewrite HR, Hq2. rewrite <- Hq1.
  repeat split; try assumption; try lia.
Qed.
