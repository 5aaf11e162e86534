(** * Convert.v -- conversions between formats *)
From Coq Require Import ZArith Reals List Bool Lia Lra ZifyBool.
From Flocq Require Import Core.
From Verif Require Import Machine Sig SpecSig Limbs SigProofs SigProofs2 SigProofs3 SigProofs4 SigProofs5 Ieee Spec Norm Arith Special Order Bits Int Scale Next.
Import ListNotations.
Local Open Scope Z_scope.

Ltac Zify.zify_post_hook ::= idtac.

Lemma as_i32_small : forall x, - 2 ^ 31 <= x < 2 ^ 31 -> as_i32 x = x.
Proof. intros x H. unfold as_i32. rewrite Z.mod_small by lia. lia. Qed.

Lemma loss_of_exact : forall r d, loss_of r d = ExactlyZero <-> r = 0.
Proof.
  intros r d. split; [|intros ->; apply loss_of_zero]. intro H. destruct (Z.eq_dec r 0) as [|N]; [assumption|].
  pose proof (loss_of_nonzero r d N) as E. rewrite H in E. discriminate.
Qed.

Lemma convert_adjust_spec : forall S T x, sem_ok S -> sem_ok T -> wf S x -> category x = Normal ->
  PRECISION T < PRECISION S ->
  exists c, convert_adjust S T x = Ret (PRECISION T - PRECISION S - c, exp x + c) /\
    PRECISION T - PRECISION S <= c <= 0 /\
    (let ns := c - (PRECISION T - PRECISION S) in
     (ns = 0 \/ exp x + c <= MIN_EXP T \/ PRECISION T <= bitlen (sig x) - ns) /\
     (bitlen (sig x) <= ns -> exp x + c = MIN_EXP T)).
Proof.
  intros S T x HS HT Hx Cx Hlt. pose proof HS as [Hp Hmin Hmax _]. pose proof HT as [Hp' Hmin' Hmax' _].
  pose proof (wf_normal_canonical S x Hx Cx) as [K1 [K2 _]]. unfold convert_adjust.
  rewrite is_finite_non_zero_spec, Cx. cbn [category_eqb]. rewrite andb_true_r.
  destruct (Z.ltb_spec (PRECISION T - PRECISION S) 0) as [_|]; [|lia].
  rewrite omsb_single by apply Hx. set (k := bitlen (sig x)) in *.
  assert (1 <= k <= PRECISION S) as Hk.
  { split; [unfold k; rewrite bitlen_pos by lia; pose proof (Z.log2_nonneg (sig x)); lia|].
    unfold k. apply bitlen_le; lia. }
  clearbody k. rewrite as_i32_small by lia. rewrite chk32_ret by lia. cbn [bind].
  destruct (Z.ltb_spec (exp x + (k - PRECISION S)) (MIN_EXP T)) as [H1|H1].
  - rewrite chk32_ret by lia. cbn [bind].
    destruct (Z.ltb_spec (MIN_EXP T - exp x) (PRECISION T - PRECISION S)) as [H2|H2].
    + destruct (Z.ltb_spec (PRECISION T - PRECISION S) 0) as [_|]; [|lia]. rewrite chk32_ret by lia. cbn [bind].
      eexists. split; [reflexivity|]. lia.
    + destruct (Z.ltb_spec (MIN_EXP T - exp x) 0) as [H3|H3].
      * rewrite chk32_ret by lia. cbn [bind]. eexists. split; [reflexivity|]. lia.
      * destruct (Z.leb_spec k (- (PRECISION T - PRECISION S))) as [H4|H4].
        -- rewrite chk32_ret by lia. cbn [bind]. eexists. split; [reflexivity|]. lia.
        -- exists 0. split; [f_equal; f_equal; lia|]. lia.
  - cbn [bind]. destruct (Z.ltb_spec (k - PRECISION S) (PRECISION T - PRECISION S)) as [H2|H2].
    + destruct (Z.ltb_spec (PRECISION T - PRECISION S) 0) as [_|]; [|lia]. rewrite chk32_ret by lia. cbn [bind].
      eexists. split; [reflexivity|]. lia.
    + destruct (Z.ltb_spec (k - PRECISION S) 0) as [H3|H3].
      * rewrite chk32_ret by lia. cbn [bind]. eexists. split; [reflexivity|]. lia.
      * destruct (Z.leb_spec k (- (PRECISION T - PRECISION S))) as [H4|H4].
        -- rewrite chk32_ret by lia. cbn [bind]. eexists. split; [reflexivity|]. lia.
        -- exists 0. split; [f_equal; f_equal; lia|]. lia.
Qed.

(** status and result determine whether the value was kept *)
Lemma cr_kept : forall {pol} S m x zs st f, sem_ok S -> delivers pol S m x zs (st, f) ->
  (st = OK <-> finite f /\ value S f = x) /\ Z.ldiff st INVALID_OP = st.
Proof.
  intros pol S m x zs st f HS [W [_ [C1 C2]]]. set (r := rounded S m x) in *.
  destruct (Rle_lt_dec (Rabs r) (max_finite S)) as [H|H].
  - destruct (C1 H) as [F [V [A [B C]]]]. destruct (Req_dec r x) as [E|E].
    + rewrite (A E). split; [|reflexivity]. rewrite V. tauto.
    + destruct (Rle_lt_dec (min_normal S) (Rabs r)) as [H2|H2]; [rewrite (B E H2)|rewrite (C E H2)];
        (split; [|reflexivity]); rewrite V; (split; [discriminate|tauto]).
  - assert (~ (finite f /\ value S f = x)) as Hno.
    { intros [F V]. assert (r = x) as E by (unfold r; rewrite <- V; apply rounded_format, value_format; assumption).
      rewrite E, <- V in H. pose proof (value_le_max S f HS W). lra. }
    pose proof (C2 H) as C. destruct (pol (sign f)); destruct C as [-> _]; (split; [|reflexivity]);
      (split; [discriminate|tauto]).
Qed.

Lemma lost_eq : forall st, Z.ldiff st INVALID_OP = st -> (false || negb (Z.ldiff st INVALID_OP =? OK) = false <-> st = OK).
Proof. intros st ->. cbn [orb]. destruct (Z.eqb_spec st OK); cbn [negb]; split; congruence. Qed.

Lemma convert_r_normal : forall S T x m, sem_ok S -> sem_ok T -> wf S x -> category x = Normal ->
  exists st r lost, convert_r S T x m = Ret (st, r, lost) /\
    crate_rounded T m (value S x) (sign x) (st, r) /\
    (lost = false <-> finite r /\ value T r = value S x).
Proof.
  intros S T x m HS HT Hx Cx. pose proof HS as [Hp Hmin Hmax _]. pose proof HT as [Hp' Hmin' Hmax' _].
  pose proof (wf_normal_canonical S x Hx Cx) as [K1 [K2 _]]. pose proof (proj1 Hx) as Hl. unfold limb in Hl.
  unfold convert_r. unfold is_nan. rewrite Cx. cbn [category_eqb]. rewrite andb_false_r. cbn [andb bind].
  rewrite is_finite_non_zero_spec, Cx. cbn [category_eqb orb andb].
  rewrite (value_normal S x Cx) in *. set (v := (IZR (sig x) * bpow r2 (exp x - (PRECISION S - 1)))%R) in *.
  pose proof (value_pos S x Hx Cx) as Hv. fold v in Hv.
  assert (Hfin : forall f l, sign f = sign x -> category f = Normal -> limb (sig f) -> - 2 ^ 30 <= exp f <= 2 ^ 30 ->
    between (sig f) (exp f - (PRECISION T - 1)) v l ->
    l = ExactlyZero \/ exp f <= MIN_EXP T \/ 2 ^ (PRECISION T - 1) <= sig f ->
    (sig f = 0 -> l <> ExactlyZero -> exp f = MIN_EXP T) ->
    exists st r lost,
      (let! '(status, r, loses_info) := (let! '(st, r) := normalize T f m l in Ret (Z.lor OK st, r, false)) in
       Ret (status, r, loses_info || negb (Z.ldiff status INVALID_OP =? OK))) = Ret (st, r, lost) /\
      crate_rounded T m (sgnr (sign x) v) (sign x) (st, r) /\
      (lost = false <-> finite r /\ value T r = sgnr (sign x) v)).
  { intros f l Hs Hc Hlf He Hb Hor Hz.
    destruct (normalize_spec T f m l v HT Hc Hlf He ltac:(lra) Hb Hor Hz) as [[st r] [-> C]]. cbn [bind].
    rewrite Hs in C. exists st, r. eexists. split; [reflexivity|]. split; [exact C|].
    change (Z.lor OK st) with st. destruct (cr_kept T m _ _ _ _ HT C) as [C1 C2].
    rewrite lost_eq by assumption. exact C1. }
  destruct (Z_lt_le_dec (PRECISION T) (PRECISION S)) as [Hlt|Hge].
  - destruct (convert_adjust_spec S T x HS HT Hx Cx Hlt) as [c [-> [Hc [H1 H2]]]]. cbn [bind]. rewrite !andb_true_r.
    set (ns := c - (PRECISION T - PRECISION S)) in *.
    destruct (Z.ltb_spec 0 (PRECISION T - PRECISION S - c)) as [|_]; [lia|].
    pose proof (bitlen_shiftr (sig x) ns ltac:(lia) ltac:(lia)) as Hbl.
    assert (0 < 2 ^ ns) as Hpns by (apply pow2_gt0; lia).
    assert (Hq : 0 <= sig x / 2 ^ ns <= sig x) by (split; [apply Z.div_pos; lia|apply Z.div_le_upper_bound; nia]).
    destruct (Z.ltb_spec (PRECISION T - PRECISION S - c) 0) as [H3|H3].
    + rewrite chk32_ret by lia. cbn [bind].
      replace (- (PRECISION T - PRECISION S - c)) with ns by lia.
      destruct (shift_right_spec [sig x] 0 ns (limb_1 _ Hl) ltac:(lia) ltac:(lia)) as [d [-> [D1 [D2 D3]]]]. cbn [bind].
      destruct (limbs1 d D2) as [q ->]. rewrite !lval_single in *. subst q. change (get [sig x / 2 ^ ns] 0) with (Ret (sig x / 2 ^ ns)). cbn [bind].
      apply Hfin; cbn [sig exp category sign]; try reflexivity.
      * unfold limb. lia.
      * lia.
      * replace (exp x + c - (PRECISION T - 1)) with (exp x - (PRECISION S - 1) + ns) by lia.
        replace (loss_of (sig x mod 2 ^ ns) (2 ^ ns)) with (combine (loss_of (sig x mod 2 ^ ns) (2 ^ ns)) ExactlyZero) by (destruct (loss_of (sig x mod 2 ^ ns) (2 ^ ns)); reflexivity).
        apply between_shift; [lia|]. rewrite between_exact. reflexivity.
      * destruct H1 as [H1|[H1|H1]]; [lia|tauto|]. right; right.
        assert (0 < sig x / 2 ^ ns) as Hq0.
        { destruct (Z.eq_dec (sig x / 2 ^ ns) 0) as [E|]; [|lia]. rewrite E in Hbl. change (bitlen 0) with 0 in Hbl. lia. }
        pose proof (bitlen_spec (sig x / 2 ^ ns) Hq0) as [B1 _]. rewrite Hbl in B1.
        apply Z.le_trans with (2 ^ (Z.max 0 (bitlen (sig x) - ns) - 1)); [apply Z.pow_le_mono_r; lia|assumption].
      * intros E _. apply H2. rewrite E in Hbl. change (bitlen 0) with 0 in Hbl. lia.
    + assert (ns = 0) as E0 by lia. cbn [bind]. change (get [sig x] 0) with (Ret (sig x)). cbn [bind].
      apply Hfin; cbn [sig exp category sign]; try reflexivity; try tauto.
      * unfold limb. lia.
      * lia.
      * rewrite between_exact. unfold v. f_equal. f_equal. lia.
  - assert (convert_adjust S T x = Ret (PRECISION T - PRECISION S, exp x)) as ->.
    { unfold convert_adjust. destruct (Z.ltb_spec (PRECISION T - PRECISION S) 0); [lia|]. reflexivity. }
    cbn [bind]. rewrite !andb_true_r. destruct (Z.ltb_spec (PRECISION T - PRECISION S) 0) as [|_]; [lia|]. cbn [bind].
    set (sh := PRECISION T - PRECISION S) in *.
    assert (sig x * 2 ^ sh < 2 ^ 128) as Hfit.
    { assert (2 ^ PRECISION S * 2 ^ sh <= 2 ^ 128) by (rewrite <- Z.pow_add_r by lia; apply Z.pow_le_mono_r; lia).
      pose proof (pow2_gt0 sh ltac:(lia)). nia. }
    pose proof (pow2_gt0 sh ltac:(lia)) as Hpsh.
    destruct (Z.ltb_spec 0 sh) as [H3|H3].
    + destruct (shift_left_spec [sig x] 0 sh (limb_1 _ Hl) ltac:(lia) ltac:(lia)) as [d [-> [D1 [D2 D3]]]]. cbn [bind].
      destruct (limbs1 d D2) as [q ->]. rewrite !lval_single in *. change (nbits [sig x]) with 128 in D3. rewrite Z.mod_small in D3 by nia. subst q.
      change (get [sig x * 2 ^ sh] 0) with (Ret (sig x * 2 ^ sh)). cbn [bind].
      apply Hfin; cbn [sig exp category sign]; try reflexivity; try tauto.
      * unfold limb. nia.
      * lia.
      * replace (exp x - (PRECISION T - 1)) with (exp x - (PRECISION S - 1) - sh) by lia.
        apply between_shift_left; [lia|]. rewrite between_exact. reflexivity.
    + assert (sh = 0) as E0 by lia. cbn [bind]. change (get [sig x] 0) with (Ret (sig x)). cbn [bind].
      apply Hfin; cbn [sig exp category sign]; try reflexivity; try tauto.
      * unfold limb. lia.
      * lia.
      * rewrite between_exact. unfold v. f_equal. f_equal. lia.
Qed.

Lemma with_sign_eq : forall x g, with_sign x g = mkFloat (sig x) (exp x) (category x) g.
Proof.
  intros x g. unfold with_sign. rewrite negate_if_eq. unfold is_negative. f_equal. destruct (sign x), g; reflexivity.
Qed.

Lemma convert_adjust_special : forall S T x, category x <> Normal -> convert_adjust S T x = Ret (PRECISION T - PRECISION S, exp x).
Proof.
  intros S T x H. unfold convert_adjust. rewrite is_finite_non_zero_spec.
  destruct (category x); try contradiction; cbn [category_eqb]; rewrite andb_false_r; reflexivity.
Qed.

(** C20 and C21 for finite numbers *)
Theorem convert_r_crate : forall S T x m, sem_ok S -> sem_ok T -> wf S x -> finite x ->
  exists st r lost, convert_r S T x m = Ret (st, r, lost) /\
    crate_rounded T m (value S x) (sign x) (st, r) /\
    (lost = false <-> finite r /\ value T r = value S x).
Proof.
  intros S T x m HS HT Hx [Cx|Cx]; [apply convert_r_normal; assumption|].
  unfold convert_r. unfold is_nan. rewrite Cx. cbn [category_eqb]. rewrite andb_false_r. cbn [andb bind].
  rewrite convert_adjust_special by congruence. cbn [bind]. rewrite is_finite_non_zero_spec, Cx. cbn [category_eqb orb andb].
  rewrite !andb_false_r. cbn [bind]. change (get [sig x] 0) with (Ret (sig x)). cbn [bind].
  rewrite with_sign_eq. unfold is_negative. cbn [category sign]. rewrite xorb_nilpotent. cbn [ZERO category category_eqb negb orb andb].
  do 3 eexists. split; [reflexivity|]. rewrite (value_zero S x Cx). split.
  - replace 0%R with (value T (mkFloat 0 (MIN_EXP T - 1) Zero (sign x))) by reflexivity.
    apply cr_exact; [assumption|apply wf_zero; assumption|right; reflexivity|reflexivity].
  - split; [|reflexivity]. intros _. split; [right; reflexivity|]. reflexivity.
Qed.

Theorem convert_r_finite : forall S T x m, sem_ok S -> sem_ok T -> wf S x -> finite x ->
  overflow_side_ok T m (value S x) ->
  exists st r lost, convert_r S T x m = Ret (st, r, lost) /\
    correctly_rounded T m (value S x) (sign x) (st, r) /\
    (lost = false <-> finite r /\ value T r = value S x).
Proof.
  intros S T x m HS HT Hx Fx Hside. destruct (convert_r_crate S T x m HS HT Hx Fx) as [st [r [lost [E [C L]]]]].
  exists st, r, lost. split; [exact E|]. split; [|exact L]. apply crate_rounded_correct; assumption.
Qed.

(** infinities keep their sign; a format without infinities gives its NaN and
    reports the loss *)
Theorem convert_r_infinite : forall S T x m, sem_ok T -> category x = Infinity ->
  exists r, convert_r S T x m =
      Ret (match NONFINITE_BEHAVIOR T with IEEE754 => OK | NanOnly => INEXACT end, r,
           match NONFINITE_BEHAVIOR T with IEEE754 => false | NanOnly => true end) /\
    is_special T (infinity_of T) (sign x) r.
Proof.
  intros S T x m HT Cx. unfold convert_r. unfold is_nan. rewrite Cx. cbn [category_eqb]. rewrite andb_false_r. cbn [andb bind].
  rewrite convert_adjust_special by congruence. cbn [bind]. rewrite is_finite_non_zero_spec, Cx. cbn [category_eqb orb andb].
  rewrite !andb_false_r. cbn [bind]. change (get [sig x] 0) with (Ret (sig x)). cbn [bind].
  rewrite with_sign_eq. unfold is_negative. cbn [category sign]. rewrite xorb_nilpotent.
  destruct (INFINITY_facts T (sign x) HT) as [W C]. rewrite C in *. unfold inf_category in *.
  unfold infinity_of, is_special.
  destruct (NONFINITE_BEHAVIOR T); cbn [category_eqb negb orb andb]; (eexists; split; [reflexivity|]); (split; [exact W|]); split; reflexivity.
Qed.

(** ** NaNs *)
Lemma lor_bound : forall a b k, 0 <= k -> 0 <= a < 2 ^ k -> 0 <= b < 2 ^ k -> a <= Z.lor a b < 2 ^ k.
Proof.
  intros a b k Hk Ha Hb. assert (0 <= Z.lor a b) as Hn by (apply Z.lor_nonneg; lia). split.
  - assert (Z.lor a b = a + Z.ldiff b a) as ->.
    { rewrite Z.add_nocarry_lxor; [rewrite Z.lxor_lor|].
      - apply Z.bits_inj'. intros n _. rewrite !Z.lor_spec, Z.ldiff_spec. destruct (Z.testbit a n), (Z.testbit b n); reflexivity.
      - apply Z.bits_inj'. intros n _. rewrite Z.land_spec, Z.ldiff_spec, Z.bits_0. destruct (Z.testbit a n), (Z.testbit b n); reflexivity.
      - apply Z.bits_inj'. intros n _. rewrite Z.land_spec, Z.ldiff_spec, Z.bits_0. destruct (Z.testbit a n), (Z.testbit b n); reflexivity. }
    assert (0 <= Z.ldiff b a) by (apply Z.ldiff_nonneg; lia). lia.
  - destruct (Z.eq_dec (Z.lor a b) 0) as [->|]; [apply pow2_gt0; assumption|].
    apply Z.log2_lt_pow2; [lia|]. rewrite Z.log2_lor by lia.
    assert (forall c, 0 <= c < 2 ^ k -> c = 0 \/ Z.log2 c < k) as H.
    { intros c Hc. destruct (Z.eq_dec c 0); [left; assumption|right]. apply Z.log2_lt_pow2; lia. }
    destruct (Z.eq_dec k 0) as [->|]; [change (2 ^ 0) with 1 in *; exfalso; apply n; assert (a = 0) as -> by lia; assert (b = 0) as -> by lia; reflexivity|].
    destruct (H a Ha) as [->|]; destruct (H b Hb) as [->|]; change (Z.log2 0) with 0; lia.
Qed.

(** the significand of [qnan] *)
Lemma qnan_sig : forall T a, sem_ok T -> NONFINITE_BEHAVIOR T = IEEE754 ->
  sig (qnan T (Some a)) = (if X87 T then 2 ^ (PRECISION T - 1) else 0) + Z.lor (2 ^ (PRECISION T - 2)) (a mod 2 ^ (PRECISION T - 1)).
Proof.
  intros T a HT Enf. pose proof HT as [Hp Hmin Hmax Hnf]. destruct (p_pow T HT) as [P1 [P2 P3]].
  unfold qnan. cbn [sig]. rewrite Enf in Hnf. destruct Hnf as [-> [-> Hq]]. rewrite Z.lor_0_l, land_ones_mod by lia.
  destruct (X87 T); [|rewrite Hq; reflexivity]. destruct Hq as [Hp64 ->]. rewrite Hp64 in *. change (64 - 1) with 63 in *. change (64 - 2) with 62.
  replace (3 * 2 ^ 62) with (Z.lor (1 * 2 ^ 63) (2 ^ 62)) by reflexivity. rewrite <- Z.lor_assoc.
  pose proof (Z.mod_pos_bound a (2 ^ 63) ltac:(lia)) as Hm.
  rewrite lor_disjoint; [lia|lia|]. pose proof (lor_bound (2 ^ 62) (a mod 2 ^ 63) 63 ltac:(lia) ltac:(lia) ltac:(lia)). lia.
Qed.

Lemma qnan_facts : forall T a g, sem_ok T -> default_nan T (mkFloat (sig (qnan T (Some a))) (exp (qnan T (Some a))) NaN g).
Proof.
  intros T a g HT. pose proof HT as [Hp Hmin Hmax Hnf]. destruct (p_pow T HT) as [P1 [P2 P3]].
  assert (2 ^ (PRECISION T - 1) = 2 * 2 ^ (PRECISION T - 2)) as P4 by (rewrite <- Z.pow_succ_r by lia; f_equal; lia).
  assert (0 < 2 ^ (PRECISION T - 2)) as P5 by (apply pow2_gt0; lia).
  assert (2 ^ PRECISION T < 2 ^ 128) as P6 by (apply Z.pow_lt_mono_r; lia).
  destruct (NONFINITE_BEHAVIOR T) eqn:Enf.
  - pose proof (Z.mod_pos_bound a (2 ^ (PRECISION T - 1)) ltac:(lia)) as Hm.
    pose proof (lor_bound (2 ^ (PRECISION T - 2)) (a mod 2 ^ (PRECISION T - 1)) (PRECISION T - 1) ltac:(lia) ltac:(lia) Hm) as Hb.
    rewrite qnan_sig by assumption. set (b := Z.lor _ _) in *.
    assert (Z.testbit b (PRECISION T - 2) = true) as Tb by (unfold b; rewrite Z.lor_spec, Z.pow2_bits_true by lia; reflexivity).
    clearbody b. split; [|split; [reflexivity|]].
    + unfold wf, nan_sig. cbn [sig exp category]. rewrite Enf. unfold limb, i32, qnan. cbn [exp]. rewrite Enf. destruct (X87 T); lia.
    + unfold signaling. cbn [category sig]. rewrite Enf. destruct (X87 T); cbn [negb orb].
      * assert (Z.testbit (2 ^ (PRECISION T - 1) + b) (PRECISION T - 2) = true) as ->.
        { rewrite <- (Z.mul_1_l (2 ^ (PRECISION T - 1))). rewrite <- lor_disjoint by lia. rewrite Z.lor_spec, Tb. apply orb_true_r. }
        assert (Z.testbit (2 ^ (PRECISION T - 1) + b) (PRECISION T - 1) = true) as ->.
        { rewrite <- (Z.mul_1_l (2 ^ (PRECISION T - 1))). rewrite <- lor_disjoint by lia. rewrite Z.lor_spec, Z.mul_1_l, Z.pow2_bits_true by lia. reflexivity. }
        reflexivity.
      * rewrite Z.add_0_l, Tb. reflexivity.
  - assert (sig (qnan T (Some a)) = sig (NAN T) /\ exp (qnan T (Some a)) = exp (NAN T)) as [-> ->].
    { unfold NAN, qnan. cbn [sig exp]. destruct Hnf as [_ [-> _]]. rewrite Z.land_0_r. auto. }
    apply NAN_default. assumption.
Qed.

(** The payload moves with the binary point: what is left of it is the top of
    the fraction. *)
Theorem convert_r_nan : forall S T x m, sem_ok S -> sem_ok T -> wf S x -> category x = NaN ->
  exists r lost, convert_r S T x m = Ret (invalid_if (signaling S x), r, lost) /\
    default_nan T r /\ sign r = sign x /\
    (NONFINITE_BEHAVIOR S = IEEE754 -> NONFINITE_BEHAVIOR T = IEEE754 ->
       sig r mod 2 ^ (PRECISION T - 1) = Z.shiftl (sig (quieted S x)) (PRECISION T - PRECISION S) mod 2 ^ (PRECISION T - 1)) /\
    (NONFINITE_BEHAVIOR S = IEEE754 ->
      (lost = false <->
       NONFINITE_BEHAVIOR T = IEEE754 /\
       sig (quieted S x) = Z.shiftl (Z.shiftl (sig (quieted S x)) (PRECISION T - PRECISION S)) (PRECISION S - PRECISION T) /\
       (X87 S = true -> X87 T = false -> signaling S x = false))).
Proof.
  intros S T x m HS HT Hx Cx. pose proof HS as [Hp Hmin Hmax Hnf]. pose proof HT as [Hp' Hmin' Hmax' Hnf'].
  destruct (p_pow S HS) as [P1 [P2 P3]]. destruct (p_pow T HT) as [Q1 [Q2 Q3]].
  unfold convert_r. unfold is_nan. rewrite Cx. cbn [category_eqb andb].
  rewrite result_from_nan_spec by assumption. cbn [bind].
  rewrite convert_adjust_special by (cbn [quieted category]; congruence). cbn [bind].
  rewrite is_finite_non_zero_spec. cbn [quieted category]. rewrite Cx. cbn [category_eqb orb andb].
  pose proof (wf_quieted S x HS Hx Cx) as Wq. pose proof (proj1 Wq) as Hl. unfold limb in Hl.
  set (s := match NONFINITE_BEHAVIOR S with IEEE754 => Z.setbit (sig x) (PRECISION S - 2) | NanOnly => sig x end) in *.
  assert (sig (quieted S x) = s) as Es by reflexivity. rewrite Es in *.
  assert (s < 2 ^ PRECISION S) as Hs.
  { destruct Wq as [_ [_ Wq]]. cbn [quieted category] in Wq. rewrite Cx in Wq. unfold nan_sig in Wq. rewrite Es in Wq.
    destruct (NONFINITE_BEHAVIOR S); [destruct (X87 S)|]; lia. }
  assert (Hbit : NONFINITE_BEHAVIOR S = IEEE754 -> Z.testbit s (PRECISION S - 2) = true).
  { intro E. unfold s. rewrite E. apply Z.setbit_eq. lia. }
  cbn [sig quieted]. fold s. clearbody s.
  set (sh := PRECISION T - PRECISION S) in *.
  assert (Hmask : (NAN_PAYLOAD_MASK S =? 0) = match NONFINITE_BEHAVIOR S with IEEE754 => false | NanOnly => true end).
  { destruct (NONFINITE_BEHAVIOR S); [destruct Hnf as [_ [-> _]]; apply Z.eqb_neq; lia|destruct Hnf as [_ [-> _]]; reflexivity]. }
  assert (Hmask' : (NAN_PAYLOAD_MASK T =? 0) = match NONFINITE_BEHAVIOR T with IEEE754 => false | NanOnly => true end).
  { destruct (NONFINITE_BEHAVIOR T); [destruct Hnf' as [_ [-> _]]; apply Z.eqb_neq; lia|destruct Hnf' as [_ [-> _]]; reflexivity]. }
  rewrite Hmask, Hmask'.
  assert (Hx87 : forall U, sem_ok U -> is_x87_double_extended U = X87 U).
  { intros U [Hu _ _ Hun]. unfold is_x87_double_extended, X87_QNAN_SIGNIFICAND. destruct (NONFINITE_BEHAVIOR U).
    - destruct Hun as [_ [_ Hq]]. destruct (X87 U); [destruct Hq as [_ ->]; reflexivity|]. rewrite Hq. apply Z.eqb_neq. intro E.
      destruct (Z_le_gt_dec (PRECISION U - 2) 62) as [L|L].
      + pose proof (Z.pow_le_mono_r 2 _ _ ltac:(lia) L). lia.
      + destruct (Z.eq_dec (PRECISION U - 2) 63) as [L2|L2]; [rewrite L2 in E; discriminate|].
        pose proof (Z.pow_le_mono_r 2 64 (PRECISION U - 2) ltac:(lia) ltac:(lia)). lia.
    - destruct Hun as [_ [_ [-> ->]]]. reflexivity. }
  rewrite !Hx87 by assumption.
  assert (Hsg : negb (Z.land (sig x) (QNAN_SIGNIFICAND S) =? QNAN_SIGNIFICAND S) = signaling S x).
  { rewrite <- is_signaling_spec by assumption. unfold is_signaling, is_nan. rewrite Cx. reflexivity. }
  rewrite Hsg.
  (* the shifted significand and what it lost *)
  assert (exists s0 loss,
     (let! '(l, loss) :=
        (if (sh <? 0) && negb match NONFINITE_BEHAVIOR S with IEEE754 => false | NanOnly => true end
         then let! ns := chk32 (- sh) in let! '(l, _, loss) := shift_right [s] 0 ns in Ret (l, loss)
         else Ret ([s], ExactlyZero)) in
      let! l := (if (0 <? sh) && true then let! '(l, _) := shift_left l 0 sh in Ret l else Ret l) in
      let! s0 := get l 0 in Ret (s0, loss)) = Ret (s0, loss) /\
     (NONFINITE_BEHAVIOR S = IEEE754 -> s0 = Z.shiftl s sh /\ (loss = ExactlyZero <-> s = Z.shiftl s0 (- sh)))) as [s0 [loss [Eb Hsl]]].
  { destruct (Z.ltb_spec sh 0) as [H|H].
    - destruct (Z.ltb_spec 0 sh) as [|_]; [lia|]. cbn [andb]. destruct (NONFINITE_BEHAVIOR S) eqn:Enf; cbn [negb].
      2:{ cbn [bind]. change (get [s] 0) with (Ret s). cbn [bind]. do 2 eexists. split; [reflexivity|discriminate]. }
      rewrite chk32_ret by lia. cbn [bind].
      destruct (shift_right_spec [s] 0 (- sh) (limb_1 _ Hl) ltac:(lia) ltac:(lia)) as [d [-> [D1 [D2 D3]]]]. cbn [bind].
      destruct (limbs1 d D2) as [q ->]. rewrite !lval_single in *. subst q. change (get [s / 2 ^ - sh] 0) with (Ret (s / 2 ^ - sh)). cbn [bind].
      do 2 eexists. split; [reflexivity|]. intros _. rewrite Z.shiftl_div_pow2 by lia. split; [reflexivity|].
      rewrite Z.shiftl_mul_pow2 by lia. rewrite loss_of_exact.
      pose proof (pow2_gt0 (- sh) ltac:(lia)) as Hd. revert Hd. generalize (2 ^ - sh). clear. intros d Hd.
      pose proof (Z.div_mod s d ltac:(lia)) as E. rewrite Z.mul_comm in E. lia.
    - cbn [andb bind]. destruct (Z.ltb_spec 0 sh) as [H2|H2]; cbn [andb].
      + destruct (shift_left_spec [s] 0 sh (limb_1 _ Hl) ltac:(lia) ltac:(lia)) as [d [-> [D1 [D2 D3]]]]. cbn [bind].
        destruct (limbs1 d D2) as [q ->]. rewrite !lval_single in *. change (nbits [s]) with 128 in D3.
        assert (s * 2 ^ sh < 2 ^ 128) as Hfit.
        { assert (2 ^ PRECISION S * 2 ^ sh <= 2 ^ 128) by (rewrite <- Z.pow_add_r by lia; apply Z.pow_le_mono_r; lia).
          pose proof (pow2_gt0 sh ltac:(lia)). nia. }
        pose proof (pow2_gt0 sh ltac:(lia)). rewrite Z.mod_small in D3 by nia. subst q.
        change (get [s * 2 ^ sh] 0) with (Ret (s * 2 ^ sh)). cbn [bind].
        do 2 eexists. split; [reflexivity|]. intros _. rewrite Z.shiftl_mul_pow2 by lia. split; [reflexivity|].
        rewrite Z.shiftl_div_pow2, Z.opp_involutive, Z.div_mul by lia. tauto.
      + cbn [bind]. change (get [s] 0) with (Ret s). cbn [bind]. do 2 eexists. split; [reflexivity|]. intros _.
        replace sh with 0 by lia. change (- 0) with 0. rewrite !Z.shiftl_0_r. tauto. }
  set (b1 := let! '(l, loss) := _ in _) in Eb.
  match goal with |- context [bind ?e ?f] => set (e1 := e); set (k1 := f) end.
  assert (bind e1 k1 = let! '(s0, loss) := Ret (s0, loss) in
     Ret (invalid_if (signaling S x),
          with_sign (qnan T (Some s0)) (is_negative (quieted S x)),
          negb (loss_eqb loss ExactlyZero) || X87 S && negb (X87 T) && true && signaling S x
          || negb match NONFINITE_BEHAVIOR S with IEEE754 => false | NanOnly => true end && match NONFINITE_BEHAVIOR T with IEEE754 => false | NanOnly => true end
          || negb (Z.ldiff (invalid_if (signaling S x)) INVALID_OP =? OK))) as ->.
  { rewrite <- Eb. unfold b1, e1, k1.
    match goal with |- bind ?e _ = _ => destruct e as [[l ls]| |]; cbn [bind]; try reflexivity end.
    match goal with |- bind ?e _ = _ => destruct e as [l'| |]; cbn [bind]; try reflexivity end.
    match goal with |- bind ?e _ = _ => destruct e as [z'| |]; cbn [bind]; reflexivity end. }
  cbn [bind]. do 2 eexists. split; [reflexivity|]. rewrite with_sign_eq.
  assert (category (qnan T (Some s0)) = NaN) as -> by reflexivity.
  split; [apply qnan_facts; assumption|]. split; [reflexivity|]. split.
  - intros E E'. cbn [sig]. rewrite qnan_sig by assumption. destruct (Hsl E) as [H1 _]. rewrite <- H1.
    assert (forall a, ((if X87 T then 2 ^ (PRECISION T - 1) else 0) + a) mod 2 ^ (PRECISION T - 1) = a mod 2 ^ (PRECISION T - 1)) as ->.
    { intro a. destruct (X87 T); [|reflexivity]. rewrite <- (Z.mul_1_l (2 ^ (PRECISION T - 1))) at 1. rewrite Z.add_comm. apply Z.mod_add. lia. }
    assert (Z.testbit s0 (PRECISION T - 2) = true) as Tb.
    { rewrite H1, Z.shiftl_spec by lia. replace (PRECISION T - 2 - sh) with (PRECISION S - 2) by lia. apply Hbit. assumption. }
    apply Z.bits_inj'. intros n Hn.
    destruct (Z_lt_le_dec n (PRECISION T - 1)) as [L|L].
    + rewrite !Z.mod_pow2_bits_low by lia. rewrite Z.lor_spec, Z.mod_pow2_bits_low by lia.
      rewrite Z.pow2_bits_eqb by lia. destruct (Z.eqb_spec (PRECISION T - 2) n) as [<-|]; [rewrite Tb|]; reflexivity.
    + rewrite !Z.mod_pow2_bits_high by lia. reflexivity.
  - intros E. destruct (Hsl E) as [H1 H2]. rewrite E. cbn [negb andb].
    replace (PRECISION S - PRECISION T) with (- sh) by lia. rewrite <- H1, <- H2.
    assert (negb (Z.ldiff (invalid_if (signaling S x)) INVALID_OP =? OK) = false) as -> by (destruct (signaling S x); reflexivity).
    rewrite orb_false_r, andb_true_r.
    destruct loss, (X87 S), (X87 T), (signaling S x), (NONFINITE_BEHAVIOR T); cbn [loss_eqb negb andb orb]; intuition congruence.
Qed.

(** ** C39: widening and narrowing again *)
Lemma contains_representable : forall S T y, sem_ok S -> sem_ok T -> contains T S -> representable S y -> representable T y.
Proof.
  intros S T y HS HT [C1 [C2 C3]] [F M]. split; [|lra].
  unfold min_positive in C2. apply le_bpow in C2. destruct HS as [Hp _ _ _], HT as [Hp' _ _ _].
  unfold fexp in *. apply generic_inclusion_mag with (FLT_exp (MIN_EXP S - (PRECISION S - 1)) (PRECISION S)); [|assumption].
  intros _. unfold FLT_exp. lia.
Qed.

Lemma side_of_representable : forall S m y, sem_ok S -> representable S y -> overflow_side_ok S m y.
Proof. intros S m y HS [_ H]. apply side_small; assumption. Qed.

Lemma same_finite : forall S x y, sem_ok S -> wf S x -> wf S y -> finite x -> finite y -> value S x = value S y -> sign x = sign y ->
  bitwise_eq x y = true.
Proof.
  intros S x y HS Hx Hy Fx Fy V G. apply (bitwise_eq_spec S); try assumption.
  assert (Hnz : forall z, wf S z -> category z = Normal -> value S z <> 0%R).
  { intros z Wz Cz H. rewrite value_normal in H by assumption. pose proof (value_pos S z Wz Cz). destruct (sign z); cbn [sgnr] in H; lra. }
  assert (category x = category y) as C.
  { destruct Fx as [Cx|Cx], Fy as [Cy|Cy]; try congruence; exfalso.
    - rewrite (value_zero S y Cy) in V. exact (Hnz x Hx Cx V).
    - rewrite (value_zero S x Cx) in V. symmetry in V. exact (Hnz y Hy Cy V). }
  split; [assumption|]. split; [assumption|]. split; [|intros _; assumption].
  intro Cn. destruct Fx; congruence.
Qed.

Theorem convert_round_trip : forall S T x m m', sem_ok S -> sem_ok T -> wf S x -> finite x -> contains T S ->
  exists r, convert_r S T x m = Ret (OK, r, false) /\ wf T r /\ finite r /\ value T r = value S x /\
    exists r', convert_r T S r m' = Ret (OK, r', false) /\ bitwise_eq r' x = true.
Proof.
  intros S T x m m' HS HT Hx Fx HC.
  pose proof (finite_representable S x HS Hx Fx) as RS. pose proof (contains_representable S T _ HS HT HC RS) as RT.
  destruct (convert_r_finite S T x m HS HT Hx Fx (side_of_representable _ _ _ HT RT)) as [st [r [lost [E [C L]]]]].
  destruct (cr_representable T m _ _ _ _ HT RT C) as [-> [Fr Vr]]. destruct C as [Wr [Sr _]].
  assert (lost = false) as -> by (apply L; split; assumption).
  exists r. split; [exact E|]. split; [exact Wr|]. split; [exact Fr|]. split; [exact Vr|].
  rewrite <- Vr in RS.
  destruct (convert_r_finite T S r m' HT HS Wr Fr (side_of_representable _ _ _ HS RS)) as [st [r' [lost [E' [C' L']]]]].
  destruct (cr_representable S m' _ _ _ _ HS RS C') as [-> [Fr' Vr']]. destruct C' as [Wr' [Sr' _]].
  assert (lost = false) as -> by (apply L'; split; assumption).
  exists r'. split; [exact E'|]. apply (same_finite S); try assumption; [congruence|].
  rewrite Vr in Sr'. destruct Sr as [A1 [A2 A3]], Sr' as [B1 [B2 B3]].
  destruct (Rtotal_order (value S x) 0) as [H|[H|H]].
  - rewrite (B1 H), <- (A1 H), (A1 H). symmetry. destruct (sign x) eqn:Gx; [reflexivity|exfalso].
    destruct Fx as [Cx|Cx]; [|rewrite (value_zero S x Cx) in H; lra]. rewrite value_normal, Gx in H by assumption. cbn [sgnr] in H.
    pose proof (value_pos S x Hx Cx). lra.
  - rewrite (B3 H). exact (A3 H).
  - rewrite (B2 H). symmetry. destruct (sign x) eqn:Gx; [exfalso|reflexivity].
    destruct Fx as [Cx|Cx]; [|rewrite (value_zero S x Cx) in H; lra]. rewrite value_normal, Gx in H by assumption. cbn [sgnr] in H.
    pose proof (value_pos S x Hx Cx). lra.
Qed.

Lemma bit_split : forall s n, 0 <= n -> 0 <= s < 2 ^ (n + 1) -> s = b2z (Z.testbit s n) * 2 ^ n + s mod 2 ^ n.
Proof.
  intros s n Hn Hs. rewrite top_bit by assumption. rewrite Z.pow_add_r in Hs by lia. change (2 ^ 1) with 2 in Hs.
  destruct (Z.leb_spec (2 ^ n) s); cbn [b2z].
  - replace (s mod 2 ^ n) with (s - 2 ^ n); [lia|]. apply Z.mod_unique with 1; lia.
  - rewrite Z.mod_small by lia. lia.
Qed.

(** NaN payloads survive as well; the NaN comes back quieted.  [proper_nan]
    excludes the x87 patterns without integer bit, and the second condition
    the signaling x87 NaNs, which no other format can hold. *)
Theorem convert_round_trip_nan : forall S T x m m', sem_ok S -> sem_ok T -> wf S x -> category x = NaN ->
  NONFINITE_BEHAVIOR S = IEEE754 -> NONFINITE_BEHAVIOR T = IEEE754 -> PRECISION S <= PRECISION T ->
  proper_nan S x -> (X87 S = true -> X87 T = false -> signaling S x = false) ->
  exists r r', convert_r S T x m = Ret (invalid_if (signaling S x), r, false) /\ default_nan T r /\ sign r = sign x /\
    convert_r T S r m' = Ret (OK, r', false) /\ bitwise_eq r' (quieted S x) = true.
Proof.
  intros S T x m m' HS HT Hx Cx NS NT Hprec Hproper Hx87.
  pose proof HS as [Hp _ _ _]. pose proof HT as [Hp' _ _ _]. destruct (p_pow S HS) as [P1 [P2 P3]]. destruct (p_pow T HT) as [Q1 [Q2 Q3]].
  destruct (convert_r_nan S T x m HS HT Hx Cx) as [r [lost [E [[Wr [Cr Qr]] [Gr [Hsig Hlost]]]]]].
  pose proof (wf_quieted S x HS Hx Cx) as Wq.
  set (s := sig (quieted S x)) in *.
  assert (Hs : 0 <= s < 2 ^ PRECISION S).
  { destruct Wq as [_ [_ Wq]]. cbn [quieted category] in Wq. rewrite Cx in Wq. unfold nan_sig in Wq. fold s in Wq. rewrite NS in Wq. destruct (X87 S); lia. }
  set (sh := PRECISION T - PRECISION S) in *.
  assert (lost = false) as ->.
  { apply Hlost; [assumption|]. split; [assumption|]. split; [|assumption].
    replace (PRECISION S - PRECISION T) with (- sh) by lia. rewrite Z.shiftl_shiftl by lia. replace (sh + - sh) with 0 by lia. reflexivity. }
  destruct (convert_r_nan T S r m' HT HS Wr Cr) as [r' [lost' [E' [[Wr' [Cr' Qr']] [Gr' [Hsig' Hlost']]]]]].
  rewrite Qr in E'. cbn [invalid_if] in E'.
  rewrite (quieted_of_quiet T r HT Cr Qr) in *.
  replace (PRECISION S - PRECISION T) with (- sh) in * by lia.
  pose proof (Hsig NS NT) as H1. pose proof (Hsig' NT NS) as H2. clear Hsig Hsig'.
  assert (0 <= sig r < 2 ^ PRECISION T) as Hr.
  { destruct Wr as [_ [_ Wr]]. rewrite Cr in Wr. unfold nan_sig in Wr. rewrite NT in Wr. destruct (X87 T); lia. }
  assert (0 <= sig r' < 2 ^ PRECISION S) as Hr'.
  { destruct Wr' as [_ [_ Wr']]. rewrite Cr' in Wr'. unfold nan_sig in Wr'. rewrite NS in Wr'. destruct (X87 S); lia. }
  assert (Hbits : forall n, 0 <= n < PRECISION T - 1 -> Z.testbit (sig r) n = Z.testbit s (n - sh)).
  { intros n Hn. rewrite <- (Z.mod_pow2_bits_low (sig r) (PRECISION T - 1)) by lia. rewrite H1, Z.mod_pow2_bits_low by lia. apply Z.shiftl_spec. lia. }
  assert (Hbits' : forall n, 0 <= n < PRECISION S - 1 -> Z.testbit (sig r') n = Z.testbit s n).
  { intros n Hn. rewrite <- (Z.mod_pow2_bits_low (sig r') (PRECISION S - 1)) by lia. rewrite H2, Z.mod_pow2_bits_low by lia. rewrite Z.shiftl_spec by lia.
    rewrite Hbits by lia. f_equal. lia. }
  assert (lost' = false) as ->.
  { apply Hlost'; [assumption|]. split; [assumption|]. split; [|intros; assumption].
    replace (PRECISION T - PRECISION S) with sh by reflexivity. apply Z.bits_inj'. intros n Hn. rewrite Z.shiftl_spec by lia.
    destruct (Z_lt_le_dec n sh) as [L|L].
    - rewrite (Z.testbit_neg_r _ (n - sh)) by lia. rewrite Hbits by lia. apply Z.testbit_neg_r. lia.
    - rewrite Z.shiftl_spec by lia. f_equal. lia. }
  exists r, r'. split; [exact E|]. split; [split; [exact Wr|split; assumption]|]. split; [assumption|]. split; [exact E'|].
  apply (bitwise_eq_spec S); try assumption. split; [cbn [quieted category]; congruence|]. split; [cbn [quieted sign]; congruence|].
  split; [|congruence]. intros _. fold s.
  assert (sig r' mod 2 ^ (PRECISION S - 1) = s mod 2 ^ (PRECISION S - 1)) as Em.
  { apply Z.bits_inj'. intros n Hn. destruct (Z_lt_le_dec n (PRECISION S - 1)) as [L|L].
    - rewrite !Z.mod_pow2_bits_low by lia. apply Hbits'. lia.
    - rewrite !Z.mod_pow2_bits_high by lia. reflexivity. }
  rewrite (bit_split (sig r') (PRECISION S - 1)), (bit_split s (PRECISION S - 1)) by (try lia; replace (PRECISION S - 1 + 1) with (PRECISION S) by lia; assumption).
  rewrite Em. f_equal. f_equal. f_equal.
  destruct (X87 S) eqn:X.
  - assert (Z.testbit (sig r') (PRECISION S - 1) = true) as ->.
    { unfold signaling in Qr'. rewrite Cr', NS, X in Qr'. apply negb_false_iff in Qr'. apply andb_prop in Qr'. destruct Qr' as [_ H]. exact H. }
    symmetry. unfold s, quieted. cbn [sig]. rewrite NS. rewrite Z.setbit_neq by lia. apply Hproper; assumption.
  - assert (Hlow : forall a, 0 < a < 2 ^ (PRECISION S - 1) -> Z.testbit a (PRECISION S - 1) = false).
    { intros a Ha. apply Z.bits_above_log2; [lia|]. apply Z.log2_lt_pow2; lia. }
    destruct Wr' as [_ [_ Wr']]. rewrite Cr' in Wr'. unfold nan_sig in Wr'. rewrite NS, X in Wr'.
    destruct Wq as [_ [_ Wq]]. cbn [quieted category] in Wq. rewrite Cx in Wq. unfold nan_sig in Wq. fold s in Wq. rewrite NS, X in Wq.
    rewrite !Hlow by assumption. reflexivity.
Qed.
