(** * FmtNum.v -- Display: the number as an integer times a power of ten, and its digits *)
From Coq Require Import ZArith List Bool Lia ZifyBool String.
From Flocq Require Import Core.
From Verif Require Import Machine Sig SpecSig Limbs SigProofs SigProofs2 SigProofs3 SigProofs4 Ieee Parse SpecStr StrHex StrScan StrNum Fmt.
Import ListNotations.
Local Open Scope Z_scope.
Ltac Zify.zify_post_hook ::= idtac.
Local Notation length := List.length.

(** ** Multiplication by a power of five *)
Lemma bitlen_mul : forall a b, 0 < a -> 0 < b -> bitlen (a * b) <= bitlen a + bitlen b.
Proof.
  intros a b Ha Hb. pose proof (bitlen_spec a Ha) as [_ A]. pose proof (bitlen_spec b Hb) as [_ B].
  pose proof (bitlen_nonneg a). pose proof (bitlen_nonneg b).
  apply bitlen_le; [nia|lia|]. rewrite Z.pow_add_r by lia. apply Z.mul_lt_mono_nonneg; lia.
Qed.
Lemma scaled_nbits : forall l m e, limbs l -> tight l -> 0 < m < 2 ^ 128 -> 0 <= e -> lval l = m * 5 ^ e -> 3 * nbits l <= 7 * e + 768.
Proof.
  intros l m e Hl Ht Hm He V. pose proof (tight_bits l Hl Ht) as B. rewrite V in B. pose proof (pow5_bits e He) as [_ P].
  pose proof (bitlen_mul m (5 ^ e) ltac:(lia) ltac:(apply Z.pow_pos_nonneg; lia)) as M.
  assert (bitlen m <= 128) by (apply bitlen_le; lia). lia.
Qed.
Lemma fmt_pow5_loop_spec : forall fuel texp sg ss p5 ps q e m, limbs sg -> limbs ss -> limbs p5 -> limbs ps -> tight sg -> tight p5 ->
  0 < m < 2 ^ 128 -> lval sg = m * 5 ^ e -> p5 <> [] -> lval p5 = 5 ^ q -> 0 <= e -> 1 <= q -> 0 <= texp < 2 ^ (Z.of_nat fuel - 1) ->
  e + 2 * q * texp <= 2 ^ 28 ->
  exists r, fmt_pow5_loop fuel texp sg ss p5 ps = Ret r /\ limbs r /\ tight r /\ lval r = m * 5 ^ (e + 2 * q * texp).
Proof.
  induction fuel as [|fuel IH]; intros texp sg ss p5 ps q e m Hs Hss Hp Hps Ts Tp Hm Vs Np Vp He Hq Ht HB.
  { exfalso. change (2 ^ (Z.of_nat 0 - 1)) with 0 in Ht. lia. }
  cbn [fmt_pow5_loop]. destruct (Z.eqb_spec texp 0) as [->|N]; cbn [negb].
  - exists sg. split; [reflexivity|]. split; [exact Hs|]. split; [exact Ts|]. replace (e + 2 * q * 0) with e by ring. exact Vs.
  - assert (Hq8 : 2 * q <= 2 * q * texp) by nia.
    replace (is_empty p5) with false by (destruct p5; [contradiction|reflexivity]).
    pose proof (pow5_nbits p5 q Hp Tp ltac:(lia) Vp) as Bp.
    destruct (mul_into_spec ps p5 p5 Hps Hp Hp ltac:(lia)) as [p5' [E1 [B1 [T1 V1]]]]. rewrite E1. cbn [bind].
    assert (V1' : lval p5' = 5 ^ (2 * q)) by (rewrite V1, Vp, <- Z.pow_add_r by lia; f_equal; lia).
    assert (Np' : p5' <> []).
    { intros ->. change (lval []) with 0 in V1'. assert (0 < 5 ^ (2 * q)) by (apply Z.pow_pos_nonneg; lia). lia. }
    rewrite Z.shiftr_div_pow2 by lia. change (2 ^ 1) with 2.
    assert (Hl : Z.land texp 1 = texp mod 2) by (change 1 with (Z.ones 1) at 1; rewrite Z.land_ones by lia; reflexivity).
    rewrite Hl. pose proof (Z.div_mod texp 2 ltac:(lia)) as Dm. pose proof (Z.mod_pos_bound texp 2 ltac:(lia)) as Bm.
    assert (Hp2 : 0 <= texp / 2 < 2 ^ (Z.of_nat fuel - 1)).
    { split; [apply Z.div_pos; lia|]. destruct fuel as [|fuel]; [exfalso; change (2 ^ (Z.of_nat 1 - 1)) with 1 in Ht; lia|].
      replace (Z.of_nat (S (S fuel)) - 1) with (Z.of_nat (S fuel) - 1 + 1) in Ht by lia.
      rewrite Z.pow_add_r in Ht by lia. lia. }
    destruct (Z.eqb_spec (texp mod 2) 0) as [Z0|Z1]; cbn [negb].
    + assert (Eq8 : e + 2 * (2 * q) * (texp / 2) = e + 2 * q * texp) by (clear - Dm Z0; rewrite Dm at 2; rewrite Z0; ring).
      cbn [bind]. destruct (IH (texp / 2) sg ss p5' p5 (2 * q) e m Hs Hss B1 Hp Ts T1 Hm Vs Np' V1' He ltac:(lia) Hp2 ltac:(lia)) as [r [E [X1 [X2 X3]]]].
      exists r. split; [exact E|]. split; [exact X1|]. split; [exact X2|]. rewrite X3, Eq8. reflexivity.
    + assert (Eq8 : e + 2 * q + 2 * (2 * q) * (texp / 2) = e + 2 * q * texp) by (clear - Dm Z1 Bm; replace (texp mod 2) with 1 in Dm by lia; rewrite Dm at 2; ring).
      pose proof (pow5_nbits p5' (2 * q) B1 T1 ltac:(lia) V1') as Bp'. pose proof (scaled_nbits sg m e Hs Ts Hm He Vs) as Bs.
      destruct (mul_into_spec ss sg p5' Hss Hs B1 ltac:(lia)) as [r' [E2 [B2 [T2 V2]]]]. rewrite E2. cbn [bind].
      assert (V2' : lval r' = m * 5 ^ (e + 2 * q)) by (rewrite V2, Vs, V1', Z.pow_add_r by lia; ring).
      destruct (IH (texp / 2) r' sg p5' p5 (2 * q) (e + 2 * q) m B2 Hs B1 Hp T2 T1 Hm V2' Np' V1' ltac:(lia) ltac:(lia) Hp2 ltac:(lia)) as [r [E [X1 [X2 X3]]]].
      exists r. split; [exact E|]. split; [exact X1|]. split; [exact X2|]. rewrite X3, Eq8. reflexivity.
Qed.
Lemma fmt_pow5_spec : forall texp sg m, limbs sg -> tight sg -> 0 < m < 2 ^ 128 -> lval sg = m -> 0 < texp <= 2 ^ 27 ->
  exists r, fmt_pow5_loop 64 texp sg [] [] [] = Ret r /\ limbs r /\ tight r /\ lval r = m * 5 ^ texp.
Proof.
  intros texp sg m Hs Ts Hm Vs Ht. change 64%nat with (S 63). cbn [fmt_pow5_loop]. destruct (Z.eqb_spec texp 0) as [->|_]; [lia|]. cbn [negb is_empty bind app].
  rewrite Z.shiftr_div_pow2 by lia. change (2 ^ 1) with 2.
  assert (Hl : Z.land texp 1 = texp mod 2) by (change 1 with (Z.ones 1) at 1; rewrite Z.land_ones by lia; reflexivity).
  rewrite Hl. pose proof (Z.div_mod texp 2 ltac:(lia)) as Dm. pose proof (Z.mod_pos_bound texp 2 ltac:(lia)) as Bm.
  assert (L5 : limbs [5]) by (constructor; [unfold limb; lia|constructor]).
  assert (T5 : tight [5]) by (right; vm_compute; discriminate).
  assert (V5 : lval [5] = 5 ^ 1) by reflexivity.
  assert (Hp2 : 0 <= texp / 2 < 2 ^ (Z.of_nat 63 - 1)).
  { split; [apply Z.div_pos; lia|]. apply Z.le_lt_trans with texp; [apply Z.div_le_upper_bound; lia|]. apply Z.le_lt_trans with (2 ^ 27); [lia|reflexivity]. }
  destruct (Z.eqb_spec (texp mod 2) 0) as [Z0|Z1]; cbn [negb bind].
  - destruct (fmt_pow5_loop_spec 63 (texp / 2) sg [] [5] [] 1 0 m Hs (Forall_nil _) L5 (Forall_nil _) Ts T5 Hm) as [r [E [X1 [X2 X3]]]];
      [rewrite Vs, Z.pow_0_r; ring|discriminate|exact V5|lia|lia|exact Hp2|lia|].
    exists r. split; [exact E|]. split; [exact X1|]. split; [exact X2|]. rewrite X3. replace (0 + 2 * 1 * (texp / 2)) with texp by lia. reflexivity.
  - pose proof (scaled_nbits sg m 0 Hs Ts Hm ltac:(lia) ltac:(rewrite Vs, Z.pow_0_r; ring)) as Bs.
    destruct (mul_into_spec [] sg [5] (Forall_nil _) Hs L5) as [r' [E2 [B2 [T2 V2]]]]; [change (nbits [5]) with 128; lia|].
    rewrite E2. cbn [bind].
    destruct (fmt_pow5_loop_spec 63 (texp / 2) r' sg [5] [] 1 1 m B2 Hs L5 (Forall_nil _) T2 T5 Hm) as [r [E [X1 [X2 X3]]]];
      [rewrite V2, Vs; reflexivity|discriminate|exact V5|lia|lia|exact Hp2|lia|].
    exists r. split; [exact E|]. split; [exact X1|]. split; [exact X2|]. rewrite X3. replace (1 + 2 * 1 * (texp / 2)) with texp by lia. reflexivity.
Qed.

(** ** Division by ten *)
Lemma div10_spec : forall sg, limbs sg ->
  exists r, div10 sg = Ret (r, lval sg mod 10) /\ limbs r /\ lval r = lval sg / 10 /\ (lval r = 0 -> r = []) /\ nbits r <= nbits sg.
Proof.
  intros sg Hs. unfold div10.
  match goal with |- context [each_chunk sg 32 ?g 0] => set (f := g) end.
  assert (D : divides_by 10 32 f).
  { intros c r Hc Hr. unfold f. rewrite (Z.mod_small c) by lia. rewrite lor_shiftl_add by lia.
    rewrite (Z.mod_small ((r * 2 ^ 32 + c) / 10)) by (split; [apply Z.div_pos; nia|apply Z.div_lt_upper_bound; lia]).
    pose proof (Z.mod_pos_bound (r * 2 ^ 32 + c) 10 ltac:(lia)). rewrite (Z.mod_small (_ mod 10)) by (change (2 ^ 8) with 256; lia). reflexivity. }
  destruct (each_chunk_div 10 32 f sg 0 ltac:(lia) ltac:(lia) eq_refl D Hs ltac:(lia)) as [q [E [Bq [Lq Vq]]]].
  rewrite E. cbn [bind]. rewrite Z.mul_0_l, Z.add_0_l in *. destruct (pop_zeros_spec q Bq) as [P1 [P2 P3]].
  exists (pop_zeros q). split; [reflexivity|]. split; [exact P1|]. split; [rewrite P3; exact Vq|]. split.
  - intro Z0. destruct P2 as [P2|P2]; [exact P2|]. destruct (pop_zeros q) as [|a l]; [reflexivity|].
    assert (0 < 2 ^ (nbits (a :: l) - 128)) by (apply Z.pow_pos_nonneg; [lia|rewrite nbits_cons; pose proof (nbits_nonneg l); lia]). lia.
  - assert (nbits q = nbits sg) by (unfold nbits, nlimbs; lia). destruct P2 as [P2|P2]; [rewrite P2; change (nbits []) with 0; pose proof (nbits_nonneg sg); lia|].
    destruct (pop_zeros q) as [|a l] eqn:Ep; [change (nbits []) with 0; pose proof (nbits_nonneg sg); lia|].
    pose proof (lval_bound q Bq) as [_ B]. rewrite <- P3 in B. rewrite nbits_cons in *.
    assert (2 ^ (128 + nbits l - 128) < 2 ^ nbits q) by lia. apply Z.pow_lt_mono_r_iff in H0; [|lia|apply nbits_nonneg].
    unfold nbits, nlimbs in *. lia.
Qed.

(** ** Digits; [buffer] holds them least significant first *)
Definition shows (buffer : list Z) (n : Z) : Prop := digits 10 (rev buffer) n.
Lemma shows_nil : shows [] 0. Proof. constructor. Qed.
Lemma shows_cons : forall c r k n, 0 <= k <= 9 -> c = 48 + k -> shows r n -> shows (c :: r) (n * 10 + k).
Proof. intros c r k n Hk -> H. unfold shows. cbn [rev]. apply digits_snoc; [exact H|constructor; exact Hk|lia]. Qed.
Lemma shows_cons_inv : forall c r m, shows (c :: r) m -> exists k n, 0 <= k <= 9 /\ c = 48 + k /\ shows r n /\ m = n * 10 + k.
Proof.
  intros c r m H. unfold shows in H. cbn [rev] in H. inversion H as [E|ds n c' k Hd Hc Hk E E'].
  - destruct (rev r); discriminate.
  - apply app_inj_tail in E. destruct E as [-> ->]. exists k, n. pose proof (digit_nonneg _ _ Hc). split; [lia|]. split.
    + inversion Hc; lia.
    + split; [exact Hd|reflexivity].
Qed.
Lemma shows_app : forall a b n m, shows a n -> shows b m -> shows (a ++ b) (m * 10 ^ len a + n).
Proof.
  intros a b n m Ha Hb. unfold shows in *. rewrite rev_app_distr. replace (len a) with (len (rev a)) by (unfold len; rewrite rev_length; reflexivity).
  apply digits_app; [exact Hb|exact Ha|lia].
Qed.
Lemma shows_bound : forall b n, shows b n -> 0 <= n < 10 ^ len b.
Proof. intros b n H. pose proof (digits_bound 10 _ n ltac:(lia) H) as B. unfold len in *. rewrite rev_length in B. exact B. Qed.
Lemma shows_skip : forall b k n, shows b n -> 0 <= k <= len b -> shows (skipn (Z.to_nat k) b) (n / 10 ^ k) /\ shows (firstn (Z.to_nat k) b) (n mod 10 ^ k).
Proof.
  intros b k n H Hk. rewrite <- (firstn_skipn (Z.to_nat k) b) in H. unfold shows in H. rewrite rev_app_distr in H.
  destruct (digits_app_inv 10 _ _ n ltac:(lia) H) as [p [m [H1 [H2 ->]]]].
  assert (L : len (rev (firstn (Z.to_nat k) b)) = k) by (unfold len in *; rewrite rev_length, firstn_length; lia). rewrite L.
  pose proof (digits_bound 10 _ m ltac:(lia) H2) as B. rewrite L in B.
  assert (0 < 10 ^ k) by (apply Z.pow_pos_nonneg; lia).
  split; unfold shows.
  - rewrite Z.div_add_l, Z.div_small, Z.add_0_r by lia. exact H1.
  - rewrite Z.add_comm, Z.mod_add, Z.mod_small by lia. exact H2.
Qed.

(** ** The digit loop *)
Lemma not_empty : forall sg, 0 < lval sg -> is_empty sg = false.
Proof. intros sg H. destruct sg; [cbn in H; lia|reflexivity]. Qed.
Lemma fuel_step : forall v fuel, 0 < v -> v < 2 ^ (Z.of_nat (S fuel) - 1) -> v / 10 < 2 ^ (Z.of_nat fuel - 1) /\ (1 <= fuel)%nat.
Proof.
  intros v fuel Hv H. destruct fuel as [|fuel]; [change (2 ^ (Z.of_nat 1 - 1)) with 1 in H; lia|]. split; [|lia].
  replace (Z.of_nat (S (S fuel)) - 1) with (Z.of_nat (S fuel) - 1 + 1) in H by lia. rewrite Z.pow_add_r in H by lia. change (2 ^ 1) with 2 in H.
  apply Z.div_lt_upper_bound; [lia|]. assert (0 < 2 ^ (Z.of_nat (S fuel) - 1)) by (apply Z.pow_pos_nonneg; lia). lia.
Qed.
Lemma loop_discard : forall d fuel sg e, limbs sg -> 0 < lval sg / 10 ^ Z.of_nat d -> lval sg < 2 ^ (Z.of_nat fuel - 1) ->
  - 2 ^ 31 <= e -> e + Z.of_nat d <= 2 ^ 31 - 1 ->
  exists fuel' sg', digits_loop fuel sg e (Z.of_nat d) true [] = digits_loop fuel' sg' (e + Z.of_nat d) 0 true [] /\
    limbs sg' /\ lval sg' = lval sg / 10 ^ Z.of_nat d /\ lval sg' < 2 ^ (Z.of_nat fuel' - 1) /\ (fuel' <= fuel)%nat.
Proof.
  induction d as [|d IH]; intros fuel sg e Hs Hn Hf He He'.
  - change (Z.of_nat 0) with 0 in *. rewrite Z.pow_0_r, Z.div_1_r in *. exists fuel, sg. rewrite Z.add_0_r. repeat split; auto.
  - assert (P10 : 0 < 10 ^ Z.of_nat d) by (apply Z.pow_pos_nonneg; lia).
    assert (Pd : 10 ^ Z.of_nat (S d) = 10 * 10 ^ Z.of_nat d) by (rewrite Nat2Z.inj_succ, Z.pow_succ_r by lia; reflexivity).
    assert (Hp : 0 < lval sg) by (destruct (Z_lt_le_dec 0 (lval sg)) as [|L]; [assumption|]; pose proof (lval_nonneg sg Hs); replace (lval sg) with 0 in Hn by lia; rewrite Z.div_0_l in Hn; lia).
    rewrite Pd, <- Z.div_div in Hn by lia.
    destruct fuel as [|fuel]; [exfalso; change (2 ^ (Z.of_nat 0 - 1)) with 0 in Hf; lia|].
    destruct (fuel_step _ _ Hp Hf) as [Hf' _]. destruct (div10_spec sg Hs) as [r [E [Br [Vr _]]]]. rewrite <- Vr in Hn, Hf'.
    destruct (IH fuel r (e + 1) Br Hn Hf' ltac:(lia) ltac:(lia)) as [fuel' [sg' [E' [B' [V' [F' L']]]]]].
    exists fuel', sg'. split.
    + cbn [digits_loop]. rewrite (not_empty sg Hp), E. cbn [bind]. replace (0 <? Z.of_nat (S d)) with true by lia.
      rewrite chk32_ret by lia. cbn [bind]. replace (Z.of_nat (S d) - 1) with (Z.of_nat d) by lia. rewrite E'. f_equal. lia.
    + split; [exact B'|]. split; [rewrite V', Vr, Pd, Z.div_div by lia; reflexivity|]. split; [exact F'|lia].
Qed.
Lemma loop_trail : forall fuel sg e, limbs sg -> 0 < lval sg -> lval sg < 2 ^ (Z.of_nat fuel - 1) ->
  - 2 ^ 31 <= e -> e + Z.of_nat fuel <= 2 ^ 31 - 1 ->
  exists fuel' sg' t k, digits_loop fuel sg e 0 true [] = digits_loop fuel' sg' (e + t) 0 false [48 + k] /\
    limbs sg' /\ (lval sg' = 0 -> sg' = []) /\ lval sg = (lval sg' * 10 + k) * 10 ^ t /\ 1 <= k <= 9 /\ 0 <= t <= Z.of_nat fuel /\
    lval sg' < 2 ^ (Z.of_nat fuel' - 1).
Proof.
  induction fuel as [|fuel IH]; intros sg e Hs Hp Hf He He'; [exfalso; change (2 ^ (Z.of_nat 0 - 1)) with 0 in Hf; lia|].
  destruct (fuel_step _ _ Hp Hf) as [Hf' _]. destruct (div10_spec sg Hs) as [r [E [Br [Vr [Er _]]]]]. rewrite <- Vr in Hf'.
  pose proof (Z.div_mod (lval sg) 10 ltac:(lia)) as Dm. pose proof (Z.mod_pos_bound (lval sg) 10 ltac:(lia)) as Bm.
  cbn [digits_loop]. rewrite (not_empty sg Hp), E. cbn [bind]. change (0 <? 0) with false. cbv iota.
  destruct (Z.eqb_spec (lval sg mod 10) 0) as [Z0|Z0]; cbn [andb].
  - destruct (IH r (e + 1) Br ltac:(lia) Hf' ltac:(lia) ltac:(lia)) as [fuel' [sg' [t [k [E' [B' [N' [V' [K' [T' F']]]]]]]]]].
    exists fuel', sg', (t + 1), k. rewrite chk32_ret by lia. cbn [bind]. split; [rewrite E'; f_equal; lia|]. split; [exact B'|]. split; [exact N'|]. split.
    + rewrite Z.pow_add_r, Z.pow_1_r by lia. lia.
    + split; [exact K'|]. split; [lia|exact F'].
  - exists fuel, r, 0, (lval sg mod 10). rewrite Z.add_0_r, Z.pow_0_r. change (ch "0") with 48. split; [reflexivity|]. split; [exact Br|]. split; [exact Er|]. split; [lia|].
    split; [lia|]. split; [lia|exact Hf'].
Qed.
Lemma loop_fill : forall fuel sg e buffer, limbs sg -> (lval sg = 0 -> sg = []) -> lval sg < 2 ^ (Z.of_nat fuel - 1) ->
  exists ds, digits_loop fuel sg e 0 false buffer = Ret (buffer ++ ds, e) /\ shows ds (lval sg) /\
    (lval sg = 0 -> ds = []) /\ (0 < lval sg -> ds <> [] /\ 10 ^ (len ds - 1) <= lval sg).
Proof.
  induction fuel as [|fuel IH]; intros sg e buffer Hs N Hf;
    [exfalso; change (2 ^ (Z.of_nat 0 - 1)) with 0 in Hf; pose proof (lval_nonneg sg Hs); lia|].
  pose proof (lval_nonneg sg Hs) as P0. destruct (Z.eq_dec (lval sg) 0) as [Z0|Z0].
  - rewrite (N Z0). cbn [digits_loop is_empty]. exists []. rewrite app_nil_r. split; [reflexivity|]. change (lval []) with 0.
    split; [apply shows_nil|]. split; [reflexivity|lia].
  - assert (Hp : 0 < lval sg) by lia. destruct (fuel_step _ _ Hp Hf) as [Hf' _]. destruct (div10_spec sg Hs) as [r [E [Br [Vr [Er _]]]]].
    pose proof (Z.div_mod (lval sg) 10 ltac:(lia)) as Dm. pose proof (Z.mod_pos_bound (lval sg) 10 ltac:(lia)) as Bm.
    cbn [digits_loop]. rewrite (not_empty sg Hp), E. cbn [bind]. change (0 <? 0) with false. cbn [andb]. rewrite <- Vr in *.
    destruct (IH r e (buffer ++ [ch "0" + lval sg mod 10]) Br Er Hf') as [ds [E' [S' [Z' P']]]].
    exists ((48 + lval sg mod 10) :: ds). split; [rewrite E', <- app_assoc; reflexivity|]. split.
    + replace (lval sg) with (lval r * 10 + lval sg mod 10) at 2 by lia. apply shows_cons; [lia|reflexivity|exact S'].
    + split; [lia|]. intros _. split; [discriminate|]. rewrite len_cons. replace (1 + len ds - 1) with (len ds) by lia.
      pose proof (lval_nonneg r Br) as Pr. destruct (Z.eq_dec (lval r) 0) as [Zr|Zr].
      * rewrite (Z' Zr). change (len []) with 0. rewrite Z.pow_0_r. lia.
      * destruct (P' ltac:(lia)) as [Nd Bd]. replace (len ds) with (len ds - 1 + 1) by lia.
        assert (1 <= len ds) by (unfold len; destruct ds; [contradiction|cbn; lia]).
        rewrite Z.pow_add_r, Z.pow_1_r by lia. lia.
Qed.
Lemma digits_loop_spec : forall fuel sg e d, limbs sg -> 0 <= d -> 0 < lval sg / 10 ^ d -> lval sg < 2 ^ (Z.of_nat fuel - 1) ->
  - 2 ^ 31 <= e -> e + d + Z.of_nat fuel <= 2 ^ 31 - 1 ->
  exists buffer t n, digits_loop fuel sg e d true [] = Ret (buffer, e + d + t) /\ buffer <> [] /\ shows buffer n /\ n mod 10 <> 0 /\
    10 ^ (len buffer - 1) <= n /\ lval sg / 10 ^ d = n * 10 ^ t /\ 0 <= t <= Z.of_nat fuel.
Proof.
  intros fuel sg e d Hs Hd Hn Hf He He'. rewrite <- (Z2Nat.id d Hd) in Hn.
  destruct (loop_discard (Z.to_nat d) fuel sg e Hs Hn Hf He ltac:(lia)) as [f1 [s1 [E1 [B1 [V1 [F1 L1]]]]]]. rewrite (Z2Nat.id d Hd) in *.
  rewrite <- V1 in Hn.
  destruct (loop_trail f1 s1 (e + d) B1 Hn F1 ltac:(lia) ltac:(lia)) as [f2 [s2 [t [k [E2 [B2 [N2 [V2 [K2 [T2 F2]]]]]]]]]].
  destruct (loop_fill f2 s2 (e + d + t) [48 + k] B2 N2 F2) as [ds [E3 [S3 [Z3 P3]]]].
  exists ((48 + k) :: ds), t, (lval s2 * 10 + k). split; [rewrite E1, E2; exact E3|]. split; [discriminate|].
  split; [apply shows_cons; [lia|reflexivity|exact S3]|]. split.
  - rewrite Z.add_comm, Z.mod_add, Z.mod_small by lia. lia.
  - split; [|split; [rewrite <- V1; exact V2|lia]]. rewrite len_cons. replace (1 + len ds - 1) with (len ds) by lia.
    pose proof (lval_nonneg s2 B2). destruct (Z.eq_dec (lval s2) 0) as [Zr|Zr].
    + rewrite (Z3 Zr). change (len []) with 0. rewrite Z.pow_0_r. lia.
    + destruct (P3 ltac:(lia)) as [Nd Bd]. replace (len ds) with (len ds - 1 + 1) by lia.
      assert (1 <= len ds) by (unfold len; destruct ds; [contradiction|cbn; lia]).
      rewrite Z.pow_add_r, Z.pow_1_r by lia. lia.
Qed.

(** ** Rounding to the requested number of digits *)
Lemma count_zeros_spec : forall b n, shows b n -> 0 < n ->
  0 <= count_zeros b < len b /\ exists m, shows (skipn (Z.to_nat (count_zeros b)) b) m /\ m mod 10 <> 0 /\ n = m * 10 ^ count_zeros b.
Proof.
  induction b as [|c b IH]; intros n H Hn.
  - pose proof (shows_bound _ _ H) as B. change (len []) with 0 in B. rewrite Z.pow_0_r in B. lia.
  - destruct (shows_cons_inv c b n H) as [k [m [Hk [-> [Hm ->]]]]]. cbn [count_zeros]. change (ch "0") with 48. rewrite len_cons.
    destruct (Z.eqb_spec (48 + k) 48) as [E|E].
    + assert (k = 0) as -> by lia. destruct (IH m Hm ltac:(lia)) as [C [m' [S' [N' V']]]]. split; [lia|]. exists m'.
      replace (Z.to_nat (1 + count_zeros b)) with (S (Z.to_nat (count_zeros b))) by lia. cbn [skipn]. split; [exact S'|]. split; [exact N'|].
      rewrite Z.pow_add_r, Z.pow_1_r by lia. lia.
    + split; [pose proof (len_nonneg b); lia|]. exists (m * 10 + k). change (Z.to_nat 0) with 0%nat. cbn [skipn]. split; [exact H|].
      rewrite Z.pow_0_r. split; [|lia]. rewrite Z.add_comm, Z.mod_add, Z.mod_small by lia. lia.
Qed.
Lemma carry_nines_spec : forall b n, shows b n ->
  let '(skip, b') := carry_nines b in
  0 <= skip <= len b /\ len b' = len b /\
  (skip < len b -> exists m, shows (skipn (Z.to_nat skip) b') m /\ m mod 10 <> 0 /\ n + 1 = m * 10 ^ skip) /\
  (skip = len b -> n + 1 = 10 ^ skip).
Proof.
  induction b as [|c b IH]; intros n H.
  - cbn [carry_nines]. change (len []) with 0. split; [lia|]. split; [reflexivity|]. split; [lia|]. intros _. rewrite Z.pow_0_r.
    pose proof (shows_bound _ _ H) as B. change (len []) with 0 in B. rewrite Z.pow_0_r in B. lia.
  - destruct (shows_cons_inv c b n H) as [k [m [Hk [-> [Hm ->]]]]]. cbn [carry_nines]. change (ch "9") with 57. rewrite !len_cons.
    destruct (Z.eqb_spec (48 + k) 57) as [E|E].
    + assert (k = 9) as -> by lia. specialize (IH m Hm). destruct (carry_nines b) as [s b']. destruct IH as [I1 [I2 [I3 I4]]].
      rewrite len_cons. split; [lia|]. split; [lia|]. split.
      * intro L. destruct (I3 ltac:(lia)) as [m' [S' [N' V']]]. exists m'.
        replace (Z.to_nat (1 + s)) with (S (Z.to_nat s)) by lia. cbn [skipn]. split; [exact S'|]. split; [exact N'|].
        rewrite Z.pow_add_r, Z.pow_1_r by lia. lia.
      * intro L. specialize (I4 ltac:(lia)). rewrite Z.pow_add_r, Z.pow_1_r by lia. lia.
    + rewrite len_cons. pose proof (len_nonneg b). split; [lia|]. split; [reflexivity|]. split; [|lia]. intros _.
      exists (m * 10 + (k + 1)). change (Z.to_nat 0) with 0%nat. cbn [skipn]. split; [apply shows_cons; [lia|lia|exact Hm]|].
      rewrite Z.pow_0_r. split; [|lia]. rewrite Z.add_comm, Z.mod_add, Z.mod_small by lia. lia.
Qed.
Lemma nth_skipn : forall (l : list Z) a b, nth a (skipn b l) 0 = nth (b + a) l 0.
Proof. induction l as [|x l IH]; intros a [|b]; [destruct a; reflexivity|destruct a; destruct b; reflexivity|reflexivity|cbn; apply IH]. Qed.
(** the decimal [n * 10^e], reduced to [P] digits *)
Lemma round_buffer_spec : forall buffer n e P, shows buffer n -> buffer <> [] -> n mod 10 <> 0 -> 10 ^ (len buffer - 1) <= n -> 1 <= P ->
  len buffer < 2 ^ 29 -> - 2 ^ 29 <= e <= 2 ^ 29 ->
  exists b' n' e', round_buffer buffer e P = Ret (b', e') /\ b' <> [] /\ shows b' n' /\ n' mod 10 <> 0 /\ 10 ^ (len b' - 1) <= n' /\ len b' <= Z.min P (len buffer) /\
    e <= e' <= e + len buffer /\
    (len buffer <= P -> n' = n /\ e' = e) /\
    (P < len buffer -> let L := len buffer - P in let h := n / 10 ^ L in
       e' >= e + L /\ n' * 10 ^ (e' - e - L) = (if (n / 10 ^ (L - 1)) mod 10 <? 5 then h else h + 1)).
Proof.
  intros buffer n e P H Nb Nn Hn HP HL He. unfold round_buffer.
  assert (L0 : 1 <= len buffer) by (unfold len; destruct buffer; [contradiction|cbn; lia]).
  destruct (Z.ltb_spec P (len buffer)) as [C|C].
  - set (L := len buffer - P) in *. assert (1 <= L) by lia. rewrite usub_ret by lia. cbn [bind]. rewrite get_ret by lia. cbn [bind].
    rewrite slice_from_ret by lia. cbn [bind].
    destruct (shows_skip buffer L n H ltac:(lia)) as [Hh _].
    assert (Lh : len (skipn (Z.to_nat L) buffer) = P) by (unfold len in *; rewrite skipn_length; lia).
    set (tail := skipn (Z.to_nat L) buffer) in *. set (h := n / 10 ^ L) in *.
    pose proof (shows_bound _ _ Hh) as Bh. rewrite Lh in Bh.
    assert (P10 : 0 < 10 ^ L) by (apply Z.pow_pos_nonneg; lia).
    assert (Hh1 : 10 ^ (P - 1) <= h).
    { unfold h. apply Z.div_le_lower_bound; [exact P10|]. rewrite <- Z.pow_add_r by lia. replace (L + (P - 1)) with (len buffer - 1) by lia. exact Hn. }
    assert (0 < 10 ^ (P - 1)) by (apply Z.pow_pos_nonneg; lia).
    (* the digit that decides *)
    assert (Hd : nth (Z.to_nat (L - 1)) buffer 0 = 48 + (n / 10 ^ (L - 1)) mod 10).
    { destruct (shows_skip buffer (L - 1) n H ltac:(lia)) as [Hs _].
      rewrite <- (Nat.add_0_r (Z.to_nat (L - 1))). rewrite <- nth_skipn.
      destruct (skipn (Z.to_nat (L - 1)) buffer) as [|c r] eqn:Es.
      - apply (f_equal (fun l => Z.of_nat (length l))) in Es. rewrite skipn_length in Es. unfold len in *. cbn in Es. lia.
      - destruct (shows_cons_inv c r _ Hs) as [k [m [Hk [-> [_ ->]]]]]. cbn [nth]. rewrite Z.add_comm with (n := m * 10), Z.mod_add, Z.mod_small by lia. reflexivity. }
    rewrite Hd. change (ch "5") with 53.
    pose proof (Z.mod_pos_bound (n / 10 ^ (L - 1)) 10 ltac:(lia)) as Bd.
    destruct (Z.ltb_spec (48 + (n / 10 ^ (L - 1)) mod 10) 53) as [D|D].
    + destruct (count_zeros_spec tail h Hh ltac:(lia)) as [Cz [m [Sm [Nm Vm]]]]. rewrite Lh in Cz.
      rewrite as_i32_id by lia. rewrite chk32_ret by lia. cbn [bind]. rewrite slice_from_ret by lia. cbn [bind].
      set (z := count_zeros tail) in *. set (b' := skipn (Z.to_nat z) tail) in *.
      assert (Lb : len b' = P - z) by (unfold b', len in *; rewrite skipn_length; lia).
      replace (is_empty b') with false by (destruct b'; [change (len []) with 0 in Lb; lia|reflexivity]).
      exists b', m, (e + (L + z)). split; [reflexivity|].
      split; [intros ->; change (len []) with 0 in Lb; lia|]. split; [exact Sm|]. split; [exact Nm|]. split.
      { rewrite Lb. apply Z.mul_le_mono_pos_r with (10 ^ z); [apply Z.pow_pos_nonneg; lia|]. rewrite <- Z.pow_add_r by lia. rewrite <- Vm. replace (P - z - 1 + z) with (P - 1) by lia. exact Hh1. }
      split; [lia|]. split; [lia|]. split; [lia|]. intros _. cbv zeta. split; [lia|].
      destruct (Z.ltb_spec ((n / 10 ^ (L - 1)) mod 10) 5); [|lia]. replace (e + (L + z) - e - L) with z by lia. symmetry. exact Vm.
    + pose proof (carry_nines_spec tail h Hh) as Cs. destruct (carry_nines tail) as [z tail']. destruct Cs as [Cz [Lt [C1 C2]]]. rewrite Lh in *.
      rewrite as_i32_id by lia. rewrite chk32_ret by lia. cbn [bind]. rewrite slice_from_ret by lia. cbn [bind].
      set (b' := skipn (Z.to_nat z) tail') in *.
      assert (Lb : len b' = P - z) by (unfold b', len in *; rewrite skipn_length; lia).
      destruct (Z.eq_dec z P) as [Ez|Ez].
      * replace (is_empty b') with true by (destruct b'; [reflexivity|rewrite len_cons in Lb; pose proof (len_nonneg b'); lia]).
        exists [49], 1, (e + (L + z)). change (ch "1") with 49. split; [reflexivity|]. split; [discriminate|].
        split; [apply (shows_cons 49 [] 1 0); [lia|reflexivity|apply shows_nil]|]. split; [discriminate|].
        change (len [49]) with 1. split; [cbn; lia|]. split; [lia|]. split; [lia|]. split; [lia|]. intros _. cbv zeta. split; [lia|].
        destruct (Z.ltb_spec ((n / 10 ^ (L - 1)) mod 10) 5); [lia|]. replace (e + (L + z) - e - L) with z by lia. rewrite (C2 Ez). ring.
      * replace (is_empty b') with false by (destruct b'; [change (len []) with 0 in Lb; lia|reflexivity]).
        destruct (C1 ltac:(lia)) as [m [Sm [Nm Vm]]].
        exists b', m, (e + (L + z)). split; [reflexivity|].
        split; [intros ->; change (len []) with 0 in Lb; lia|]. split; [exact Sm|]. split; [exact Nm|]. split.
        { rewrite Lb. apply Z.mul_le_mono_pos_r with (10 ^ z); [apply Z.pow_pos_nonneg; lia|]. rewrite <- Z.pow_add_r by lia. rewrite <- Vm. replace (P - z - 1 + z) with (P - 1) by lia. lia. }
        split; [lia|]. split; [lia|]. split; [lia|]. intros _. cbv zeta. split; [lia|].
        destruct (Z.ltb_spec ((n / 10 ^ (L - 1)) mod 10) 5); [lia|]. replace (e + (L + z) - e - L) with z by lia. symmetry. exact Vm.
  - exists buffer, n, e. split; [reflexivity|]. split; [exact Nb|]. split; [exact H|]. split; [exact Nn|]. split; [exact Hn|]. split; [lia|]. split; [lia|].
    split; [split; reflexivity|lia].
Qed.
