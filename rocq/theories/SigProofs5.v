(** * SigProofs5.v -- signed addition of limb slices with exponents *)
From Coq Require Import ZArith List Bool Lia ZifyBool.
From Verif Require Import Machine Sig SpecSig Limbs SigProofs SigProofs2 SigProofs3 SigProofs4.
Import ListNotations.
Local Open Scope Z_scope.

Ltac Zify.zify_post_hook ::= idtac.

Definition sgn (s : bool) : Z := if s then -1 else 1.

Definition flip_loss (l : Loss) : Loss :=
  match l with
  | LessThanHalf => MoreThanHalf
  | MoreThanHalf => LessThanHalf
  | _ => l
  end.

Lemma flip_loss_of : forall f d, 0 < f < d -> flip_loss (loss_of f d) = loss_of (d - f) d.
Proof.
  intros f d H. unfold loss_of. destruct (Z.eqb_spec f 0); [lia|]. destruct (Z.eqb_spec (d - f) 0); [lia|].
  destruct (Z.compare_spec (2 * f) d) as [E|E|E]; destruct (Z.compare_spec (2 * (d - f)) d) as [F|F|F]; try lia; reflexivity.
Qed.

Lemma loss_of_zero : forall d, loss_of 0 d = ExactlyZero.
Proof. reflexivity. Qed.
Lemma loss_of_nonzero : forall f d, f <> 0 -> loss_eqb (loss_of f d) ExactlyZero = false.
Proof. intros f d H. unfold loss_of. destruct (Z.eqb_spec f 0); [lia|]. destruct (2 * f ?= d); reflexivity. Qed.

(** [x*d - y] when [y] was truncated to a multiple of [d] *)
Lemma sub_trunc : forall x y d, 0 < d ->
  let c := b2z (negb (loss_eqb (loss_of (y mod d) d) ExactlyZero)) in
  (c = 0 \/ c = 1) /\ (y mod d = 0 -> c = 0) /\
  (x * d - y) / d = x - y / d - c /\
  loss_of ((x * d - y) mod d) d = flip_loss (loss_of (y mod d) d).
Proof.
  intros x y d Hd c. pose proof (Z.mod_pos_bound y d Hd) as Hm. pose proof (Z.div_mod y d ltac:(lia)) as Hy.
  destruct (Z.eq_dec (y mod d) 0) as [H0|H0].
  - unfold c. rewrite H0. rewrite loss_of_zero. cbn [loss_eqb negb b2z].
    split; [auto|]. split; [auto|].
    assert (x * d - y = (x - y / d) * d) as -> by lia. rewrite Z.div_mul, Z.mod_mul by lia. split; [lia|reflexivity].
  - unfold c. rewrite loss_of_nonzero by assumption. cbn [negb b2z]. split; [auto|]. split; [contradiction|].
    assert (x * d - y = (x - y / d - 1) * d + (d - y mod d)) as -> by lia.
    rewrite Z.div_add_l by lia. rewrite (Z.div_small (d - y mod d)) by lia. split; [lia|].
    rewrite Z.add_comm, Z.mod_add by lia. rewrite (Z.mod_small (d - y mod d)) by lia.
    symmetry. apply flip_loss_of. lia.
Qed.

(** what remains after the two slices have been brought to the same exponent:
    [b] exact, [a] truncated by [k] bits (or the other way round) *)
Definition sub_core (a_sig b_sig : list Z) (a_sign : bool) (loss : Loss) : outcome (list Z * bool) :=
    let borrow := b2z (negb (loss_eqb loss ExactlyZero)) in
    let! c := cmp a_sig b_sig in
      (match c with
       | Lt =>
         let! '(b_sig, out) := sub b_sig a_sig borrow in
         assertb (out =? 0) (
         assertb (len a_sig =? len b_sig) (Ret (b_sig, negb a_sign)))
       | _ =>
         let! '(a_sig, out) := sub a_sig b_sig borrow in
         assertb (out =? 0) (Ret (a_sig, a_sign))
       end).

Lemma sub_core_exact : forall a b s, limbs a -> limbs b -> length a = length b ->
  exists r, sub_core a b s ExactlyZero = Ret (r, if lval a <? lval b then negb s else s) /\
    limbs r /\ length r = length a /\ lval r = Z.abs (lval a - lval b).
Proof.
  intros a b s Ha Hb Hl. unfold sub_core. rewrite cmp_spec by assumption. cbn [bind loss_eqb negb b2z].
  destruct (Z.compare_spec (lval a) (lval b)) as [E|E|E].
  - destruct (sub_nocarry a b 0 Ha Hb Hl ltac:(lia) ltac:(lia)) as [r [Er [Hr [Hlr Hvr]]]].
    rewrite Er. cbn [bind Z.eqb assertb]. exists r. destruct (Z.ltb_spec (lval a) (lval b)); [lia|].
    split; [reflexivity|]; split; [assumption|]; split; lia.
  - destruct (sub_nocarry b a 0 Hb Ha ltac:(lia) ltac:(lia) ltac:(lia)) as [r [Er [Hr [Hlr Hvr]]]].
    rewrite Er. cbn [bind Z.eqb assertb]. exists r. destruct (Z.ltb_spec (lval a) (lval b)); [|lia].
    rewrite !len_eq, Hlr, Hl, Z.eqb_refl. cbn [assertb].
    split; [reflexivity|]; split; [assumption|]; split; lia.
  - destruct (sub_nocarry a b 0 Ha Hb Hl ltac:(lia) ltac:(lia)) as [r [Er [Hr [Hlr Hvr]]]].
    rewrite Er. cbn [bind Z.eqb assertb]. exists r. destruct (Z.ltb_spec (lval a) (lval b)); [lia|].
    split; [reflexivity|]; split; [assumption|]; split; lia.
Qed.

Lemma sub_core_gt : forall a b s loss, limbs a -> limbs b -> length a = length b -> lval b < lval a ->
  exists r, sub_core a b s loss = Ret (r, s) /\
    limbs r /\ length r = length a /\ lval r = lval a - lval b - b2z (negb (loss_eqb loss ExactlyZero)).
Proof.
  intros a b s loss Ha Hb Hl Hlt. unfold sub_core. rewrite cmp_spec by assumption. cbn [bind].
  set (c := b2z (negb (loss_eqb loss ExactlyZero))). assert (0 <= c <= 1) by (unfold c; destruct (negb _); cbn; lia).
  destruct (Z.compare_spec (lval a) (lval b)) as [E|E|E]; try lia.
  destruct (sub_nocarry a b c Ha Hb Hl ltac:(lia) ltac:(lia)) as [r [Er [Hr [Hlr Hvr]]]].
  rewrite Er. cbn [bind Z.eqb assertb]. exists r. repeat split; assumption.
Qed.

Lemma sub_core_lt : forall a b s loss, limbs a -> limbs b -> length a = length b -> lval a < lval b ->
  exists r, sub_core a b s loss = Ret (r, negb s) /\
    limbs r /\ length r = length a /\ lval r = lval b - lval a - b2z (negb (loss_eqb loss ExactlyZero)).
Proof.
  intros a b s loss Ha Hb Hl Hlt. unfold sub_core. rewrite cmp_spec by assumption. cbn [bind].
  set (c := b2z (negb (loss_eqb loss ExactlyZero))). assert (0 <= c <= 1) by (unfold c; destruct (negb _); cbn; lia).
  destruct (Z.compare_spec (lval a) (lval b)) as [E|E|E]; try lia.
  destruct (sub_nocarry b a c Hb Ha ltac:(lia) ltac:(lia) ltac:(lia)) as [r [Er [Hr [Hlr Hvr]]]].
  rewrite Er. cbn [bind Z.eqb assertb]. rewrite !len_eq, Hlr, Hl, Z.eqb_refl. cbn [assertb].
  exists r. split; [reflexivity|]; split; [assumption|]; split; lia.
Qed.

(** one operand exact and shifted up one place, the other truncated *)
Lemma trunc_sub_value : forall x y d t, 0 < d -> (y mod d = 0 \/ y / d < x) -> 0 <= x -> 0 <= y ->
  t = Z.abs (x * d - y) ->
  (y mod d = 0 -> t / d = Z.abs (x - y / d) /\ loss_of (t mod d) d = flip_loss (loss_of (y mod d) d)) /\
  (y / d < x -> t / d = x - y / d - b2z (negb (loss_eqb (loss_of (y mod d) d) ExactlyZero)) /\
                loss_of (t mod d) d = flip_loss (loss_of (y mod d) d) /\ y < x * d).
Proof.
  intros x y d t Hd Hor Hx Hy ->. pose proof (Z.mod_pos_bound y d Hd) as Hm. pose proof (Z.div_mod y d ltac:(lia)) as Hym.
  split; intro H.
  - rewrite H. cbn [loss_of Z.eqb flip_loss].
    assert (Z.abs (x * d - y) = Z.abs (x - y / d) * d) as -> by (rewrite Hym at 1; rewrite H, Z.add_0_r; rewrite <- (Z.abs_eq d) at 5 by lia; rewrite <- Z.abs_mul; f_equal; ring).
    rewrite Z.div_mul, Z.mod_mul by lia. split; reflexivity.
  - assert (y < x * d) by nia. rewrite Z.abs_eq by lia.
    destruct (sub_trunc x y d Hd) as [_ [_ [H1 H2]]]. auto.
Qed.

Theorem add_or_sub_spec : forall a ea sa b eb sb, limbs a -> limbs b -> length a = length b ->
  2 * lval a < 2 ^ nbits a -> 2 * lval b < 2 ^ nbits a ->
  - 2 ^ 30 <= ea <= 2 ^ 30 - 1 -> - 2 ^ 30 <= eb <= 2 ^ 30 - 1 ->
  (sa <> sb -> eb < ea -> lval b mod 2 ^ (ea - eb - 1) = 0 \/ lval b / 2 ^ (ea - eb - 1) < 2 * lval a) ->
  (sa <> sb -> ea < eb -> lval a mod 2 ^ (eb - ea - 1) = 0 \/ lval a / 2 ^ (eb - ea - 1) < 2 * lval b) ->
  let m := Z.min ea eb in
  let t := sgn sa * lval a * 2 ^ (ea - m) + sgn sb * lval b * 2 ^ (eb - m) in
  let re := if xorb sa sb && negb (ea =? eb) then Z.max ea eb - 1 else Z.max ea eb in
  let d := 2 ^ (re - m) in
  exists r, add_or_sub a ea sa b eb sb =
      Ret (r, re, (if t =? 0 then sa else t <? 0), loss_of (Z.abs t mod d) d) /\
    limbs r /\ length r = length a /\ lval r = Z.abs t / d.
Proof.
  intros a ea sa b eb sb Ha Hb Hl Hfa Hfb Hea Heb Hg Hs m t re d. unfold add_or_sub.
  rewrite chk32_ret by lia. cbn [bind].
  pose proof (lval_nonneg a Ha) as NA. pose proof (lval_nonneg b Hb) as NB.
  assert (nbits b = nbits a) as Hnb by (unfold nbits, nlimbs; rewrite Hl; reflexivity).
  destruct (xorb sa sb) eqn:Ex.
  - assert (sa <> sb) as Hne by (intros ->; rewrite xorb_nilpotent in Ex; discriminate).
    assert (sb = negb sa) as Hsb by (destruct sa, sb; cbn in *; congruence).
    assert (sgn sb = - sgn sa) as Hsgn by (rewrite Hsb; destruct sa; reflexivity).
    specialize (Hg Hne). specialize (Hs Hne). cbn [andb] in re.
    destruct (Z.eqb_spec (ea - eb) 0) as [E0|E0].
    + (* equal exponents *)
      cbn [bind].
      match goal with |- exists r, ?X = _ /\ _ => replace X with
        (let! '(a_sig, a_sign) := sub_core a b sa ExactlyZero in Ret (a_sig, ea, a_sign, ExactlyZero))
          by (unfold sub_core; rewrite cmp_spec by (assumption || lia); reflexivity) end.
      destruct (sub_core_exact a b sa Ha Hb Hl) as [r [Er [Hr [Hlr Hvr]]]].
      rewrite Er. cbn [bind].
      assert (re = ea) as Hre by (unfold re; destruct (Z.eqb_spec ea eb); cbn [negb]; lia).
      assert (d = 1) as Hd by (unfold d, m; replace (re - Z.min ea eb) with 0 by lia; reflexivity).
      assert (t = sgn sa * (lval a - lval b)) as Ht.
      { unfold t, m. replace (ea - Z.min ea eb) with 0 by lia. replace (eb - Z.min ea eb) with 0 by lia. rewrite Hsgn. cbn [Z.pow]. ring. }
      rewrite Hd, Z.div_1_r, Z.mod_1_r, Hre. exists r. rewrite Ht, Hvr.
      split; [|split; [assumption|split; [assumption|clear; destruct sa; cbn [sgn]; lia]]].
      f_equal. f_equal. f_equal. destruct sa; cbn [sgn negb];
        destruct (Z.ltb_spec (lval a) (lval b)); destruct (Z.eqb_spec (-1 * (lval a - lval b)) 0);
        destruct (Z.eqb_spec (1 * (lval a - lval b)) 0); lia.
    + destruct (Z.ltb_spec 0 (ea - eb)) as [Hpos|Hneg].
      * (* a has the larger exponent: b is truncated *)
        specialize (Hg ltac:(lia)). clear Hs.
        destruct (shift_right_spec b 0 (ea - eb - 1) Hb ltac:(lia) ltac:(lia)) as [b' [Eb [Hb' [Hlb Hvb]]]].
        rewrite Eb. cbn [bind].
        destruct (shift_left_exact a ea 1 Ha ltac:(lia) ltac:(lia) ltac:(change (2 ^ 1) with 2; lia)) as [a' [Ea [Ha' [Hla Hva]]]].
        rewrite Ea. cbn [bind]. change (2 ^ 1) with 2 in Hva.
        assert (re = ea - 1) as Hre by (unfold re; destruct (Z.eqb_spec ea eb); cbn [negb]; lia).
        assert (re - m = ea - eb - 1) as Hk by (unfold m; lia).
        assert (d = 2 ^ (ea - eb - 1)) as Hd by (unfold d; f_equal; lia).
        rewrite <- Hd in *.
        assert (0 < d) as Hd0 by (rewrite Hd; apply pow2_gt0; lia).
        set (loss := loss_of (lval b mod d) d) in *.
        match goal with |- exists r, ?X = _ /\ _ => replace X with
        (let! '(a_sig, a_sign) := sub_core a' b' sa loss in Ret (a_sig, ea - 1, a_sign, flip_loss loss))
          by (unfold sub_core; rewrite cmp_spec by (assumption || lia); reflexivity) end.
        assert (t = sgn sa * (lval a' * d - lval b)) as Ht.
        { unfold t. replace (2 ^ (ea - m)) with (2 * d).
          2:{ rewrite Hd. rewrite <- Z.pow_succ_r by lia. f_equal. unfold m. lia. }
          replace (eb - m) with 0 by (unfold m; lia). rewrite Hva, Hsgn. cbn [Z.pow]. ring. }
        assert (Z.abs t = Z.abs (lval a' * d - lval b)) as Hta by (rewrite Ht; destruct sa; cbn [sgn]; lia).
        destruct (trunc_sub_value (lval a') (lval b) d (Z.abs t) Hd0) as [T1 T2]; [rewrite Hva; lia|lia|lia|assumption|].
        rewrite Hre.
        destruct (Z_lt_le_dec (lval b / d) (lval a')) as [Hc|Hc].
        -- destruct (T2 Hc) as [T3 [T4 T5]].
           destruct (sub_core_gt a' b' sa loss Ha' Hb' ltac:(lia) ltac:(rewrite Hvb; lia)) as [r [Er [Hr [Hlr Hvr]]]].
           rewrite Er. cbn [bind]. exists r. rewrite T4. fold loss.
           split; [|split; [assumption|split; [congruence|rewrite Hvr, Hvb; fold loss in T3; lia]]].
           f_equal. f_equal. f_equal. f_equal. rewrite Ht. destruct sa; cbn [sgn];
           match goal with |- _ = (if ?x =? 0 then _ else _) => destruct (Z.eqb_spec x 0); [reflexivity|symmetry; lia] end.
        -- assert (lval b mod d = 0) as Hmz by (rewrite Hva in Hc; lia).
           destruct (T1 Hmz) as [T3 T4].
           assert (loss = ExactlyZero) as Hlz by (unfold loss; rewrite Hmz; reflexivity). rewrite Hlz in *.
           destruct (sub_core_exact a' b' sa Ha' Hb' ltac:(lia)) as [r [Er [Hr [Hlr Hvr]]]].
           rewrite Er. cbn [bind]. exists r. rewrite T4, Hmz. change (flip_loss (loss_of 0 d)) with (flip_loss ExactlyZero).
           split; [|split; [assumption|split; [congruence|rewrite Hvr, Hvb, T3; reflexivity]]].
           f_equal. f_equal. f_equal. rewrite Ht, Hvb.
           assert (lval b = d * (lval b / d)) as Hbd by (pose proof (Z.div_mod (lval b) d ltac:(lia)) as X; rewrite Hmz, Z.add_0_r in X; exact X).
           set (u := lval b / d) in *. rewrite Hbd. clear - Hd0.
           set (x := lval a'). clearbody x u.
           replace (x * d - d * u) with ((x - u) * d) by ring.
           destruct (Z.ltb_spec x u); destruct sa; cbn [sgn negb];
             match goal with |- _ = (if ?x =? 0 then _ else _) => destruct (Z.eqb_spec x 0); symmetry; try (apply Z.ltb_lt); try apply Z.ltb_ge; nia end.
      * (* b has the larger exponent: a is truncated *)
        specialize (Hs ltac:(lia)). clear Hg.
        rewrite chk32_ret by lia. cbn [bind].
        destruct (shift_right_spec a ea (- (ea - eb) - 1) Ha ltac:(lia) ltac:(lia)) as [a' [Ea [Ha' [Hla Hva]]]].
        rewrite Ea. cbn [bind].
        destruct (shift_left_exact b 0 1 Hb ltac:(lia) ltac:(lia) ltac:(rewrite Hnb; change (2 ^ 1) with 2; lia)) as [b' [Eb [Hb' [Hlb Hvb]]]].
        rewrite Eb. cbn [bind]. change (2 ^ 1) with 2 in Hvb.
        assert (re = eb - 1) as Hre by (unfold re; destruct (Z.eqb_spec ea eb); cbn [negb]; lia).
        assert (d = 2 ^ (eb - ea - 1)) as Hd by (unfold d; f_equal; unfold m; lia).
        replace (- (ea - eb) - 1) with (eb - ea - 1) in * by lia.
        rewrite <- Hd in *.
        assert (0 < d) as Hd0 by (rewrite Hd; apply pow2_gt0; lia).
        set (loss := loss_of (lval a mod d) d) in *.
        match goal with |- exists r, ?X = _ /\ _ => replace X with
        (let! '(a_sig, a_sign) := sub_core a' b' sa loss in Ret (a_sig, ea + (eb - ea - 1), a_sign, flip_loss loss))
          by (unfold sub_core; rewrite cmp_spec by (assumption || lia); reflexivity) end.
        assert (t = - sgn sa * (lval b' * d - lval a)) as Ht.
        { unfold t. replace (2 ^ (eb - m)) with (2 * d).
          2:{ rewrite Hd. rewrite <- Z.pow_succ_r by lia. f_equal. unfold m. lia. }
          replace (ea - m) with 0 by (unfold m; lia). rewrite Hvb, Hsgn. cbn [Z.pow]. ring. }
        assert (Z.abs t = Z.abs (lval b' * d - lval a)) as Hta by (rewrite Ht; destruct sa; cbn [sgn]; lia).
        destruct (trunc_sub_value (lval b') (lval a) d (Z.abs t) Hd0) as [T1 T2]; [rewrite Hvb; lia|lia|lia|assumption|].
        rewrite Hre. replace (ea + (eb - ea - 1)) with (eb - 1) by lia.
        destruct (Z_lt_le_dec (lval a / d) (lval b')) as [Hc|Hc].
        -- destruct (T2 Hc) as [T3 [T4 T5]].
           destruct (sub_core_lt a' b' sa loss Ha' Hb' ltac:(lia) ltac:(rewrite Hva; lia)) as [r [Er [Hr [Hlr Hvr]]]].
           rewrite Er. cbn [bind]. exists r. rewrite T4. fold loss.
           split; [|split; [assumption|split; [congruence|rewrite Hvr, Hva; fold loss in T3; lia]]].
           f_equal. f_equal. f_equal. f_equal. rewrite Ht. destruct sa; cbn [sgn negb];
           match goal with |- _ = (if ?x =? 0 then _ else _) => destruct (Z.eqb_spec x 0); [lia|symmetry; lia] end.
        -- assert (lval a mod d = 0) as Hmz by (rewrite Hvb in Hc; lia).
           destruct (T1 Hmz) as [T3 T4].
           assert (loss = ExactlyZero) as Hlz by (unfold loss; rewrite Hmz; reflexivity). rewrite Hlz in *.
           destruct (sub_core_exact a' b' sa Ha' Hb' ltac:(lia)) as [r [Er [Hr [Hlr Hvr]]]].
           rewrite Er. cbn [bind]. exists r. rewrite T4, Hmz. change (flip_loss (loss_of 0 d)) with (flip_loss ExactlyZero).
           split; [|split; [assumption|split; [congruence|rewrite Hvr, Hva, T3; clear; lia]]].
           f_equal. f_equal. f_equal. rewrite Ht, Hva.
           assert (lval a = d * (lval a / d)) as Had by (pose proof (Z.div_mod (lval a) d ltac:(lia)) as X; rewrite Hmz, Z.add_0_r in X; exact X).
           set (u := lval a / d) in *. rewrite Had. clear - Hd0.
           set (x := lval b'). clearbody x u.
           replace (x * d - d * u) with ((x - u) * d) by ring.
           destruct (Z.ltb_spec u x); destruct sa; cbn [sgn negb];
             match goal with |- _ = (if ?x =? 0 then _ else _) => destruct (Z.eqb_spec x 0); symmetry; try (apply Z.ltb_lt); try apply Z.ltb_ge; nia end.
  - (* same signs *)
    assert (sb = sa) as -> by (destruct sa, sb; cbn in Ex; congruence).
    clear Hg Hs. cbn [andb] in re.
    assert (Hadd : forall a' b' x y k, limbs a' -> limbs b' -> length a' = length a -> length b' = length a ->
      0 <= k -> (lval a' = x /\ y = lval b' \/ True) -> lval a' + lval b' < 2 ^ nbits a ->
      exists r, add a' b' 0 = Ret (r, 0) /\ limbs r /\ length r = length a /\ lval r = lval a' + lval b').
    { intros a' b' _ _ _ Ha' Hb' Hla Hlb _ _ Hf.
      destruct (add_nocarry a' b' 0 Ha' Hb' ltac:(lia) ltac:(lia)) as [r [Er [Hr [Hlr Hvr]]]].
      { replace (nbits a') with (nbits a) by (unfold nbits, nlimbs; rewrite Hla; reflexivity). lia. }
      exists r. repeat split; [assumption|assumption|lia|lia]. }
    assert (Hsgn : forall u v, 0 <= u -> 0 <= v -> Z.abs (sgn sa * u + sgn sa * v) = u + v) by (intros; destruct sa; cbn [sgn]; lia).
    assert (Hsign : forall u v, 0 <= u -> 0 <= v -> sa = (if sgn sa * u + sgn sa * v =? 0 then sa else sgn sa * u + sgn sa * v <? 0)).
    { intros u v Hu Hv. destruct sa; cbn [sgn]; match goal with |- _ = (if ?x =? 0 then _ else _) => destruct (Z.eqb_spec x 0); [reflexivity|symmetry; lia] end. }
    destruct (Z.ltb_spec 0 (ea - eb)) as [Hpos|Hneg].
    + destruct (shift_right_spec b 0 (ea - eb) Hb ltac:(lia) ltac:(lia)) as [b' [Eb [Hb' [Hlb Hvb]]]].
      rewrite Eb. cbn [bind].
      assert (d = 2 ^ (ea - eb)) as Hd by (unfold d, re, m; f_equal; lia). rewrite <- Hd in *.
      assert (0 < d) as Hd0 by (rewrite Hd; apply pow2_gt0; lia).
      pose proof (Z.div_pos (lval b) d NB Hd0). assert (lval b / d <= lval b) by (apply Z.div_le_upper_bound; nia).
      destruct (Hadd a b' 0 0 0 Ha Hb' eq_refl ltac:(lia) ltac:(lia) (or_intror I) ltac:(lia)) as [r [Er [Hr [Hlr Hvr]]]].
      rewrite Er. cbn [bind Z.eqb assertb]. exists r.
      assert (t = sgn sa * (lval a * d) + sgn sa * lval b) as Ht.
      { unfold t. replace (ea - m) with (ea - eb) by (unfold m; lia). replace (eb - m) with 0 by (unfold m; lia). rewrite <- Hd. cbn [Z.pow]. ring. }
      rewrite Ht. rewrite Hsgn by nia. rewrite <- Hsign by nia. rewrite Z.div_add_l by lia.
      rewrite (Z.add_comm (lval a * d)), Z.mod_add by lia.
      split; [f_equal; f_equal; f_equal; f_equal; unfold re; lia|]. repeat split; [assumption|assumption|lia].
    + rewrite chk32_ret by lia. cbn [bind].
      destruct (shift_right_spec a ea (- (ea - eb)) Ha ltac:(lia) ltac:(lia)) as [a' [Ea [Ha' [Hla Hva]]]].
      rewrite Ea. cbn [bind].
      assert (d = 2 ^ (- (ea - eb))) as Hd by (unfold d, re, m; f_equal; lia). rewrite <- Hd in *.
      assert (0 < d) as Hd0 by (rewrite Hd; apply pow2_gt0; lia).
      pose proof (Z.div_pos (lval a) d NA Hd0). assert (lval a / d <= lval a) by (apply Z.div_le_upper_bound; nia).
      destruct (Hadd a' b 0 0 0 Ha' Hb ltac:(lia) ltac:(lia) ltac:(lia) (or_intror I) ltac:(lia)) as [r [Er [Hr [Hlr Hvr]]]].
      rewrite Er. cbn [bind Z.eqb assertb]. exists r.
      assert (t = sgn sa * (lval b * d) + sgn sa * lval a) as Ht.
      { unfold t. replace (eb - m) with (- (ea - eb)) by (unfold m; lia). replace (ea - m) with 0 by (unfold m; lia). rewrite <- Hd. cbn [Z.pow]. ring. }
      rewrite Ht. rewrite Hsgn by nia. rewrite <- Hsign by nia. rewrite Z.div_add_l by lia.
      rewrite (Z.add_comm (lval b * d)), Z.mod_add by lia.
      split; [f_equal; f_equal; f_equal; f_equal; unfold re; lia|]. repeat split; [assumption|assumption|lia].
Qed.
