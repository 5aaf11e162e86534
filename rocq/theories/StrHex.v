(** * StrHex.v -- hexadecimal strings *)
From Coq Require Import ZArith Reals List Bool Lia Lra ZifyBool String.
From Flocq Require Import Core Bracket Round.
From Verif Require Import Machine Sig SpecSig Limbs SigProofs SigProofs2 SigProofs3 SigProofs4 SigProofs5 Ieee Spec Norm Arith Special Order Bits Formats Int Scale Next Convert Integral Rem Fma Algebra Laws Orderx Total Parse SpecStr.
Import ListNotations.
Local Notation length := List.length (only parsing).
Ltac Zify.zify_post_hook ::= idtac.
Local Open Scope Z_scope.

(** ** Digits *)
Lemma to_digit_some : forall r c k, r <= 16 -> to_digit r c = Some k <-> digit_char c k /\ k < r.
Proof.
  intros r c k Hr. unfold to_digit. split.
  - destruct ((48 <=? c) && (c <=? 57)) eqn:E1; [|destruct ((97 <=? c) && (c <=? 122)) eqn:E2; [|destruct ((65 <=? c) && (c <=? 90)) eqn:E3]];
      match goal with |- context [?a <? r] => destruct (Z.ltb_spec a r) end; intro X; try discriminate; try (injection X as <-); try lia; (split; [|lia]).
    + replace c with (48 + (c - 48)) at 1 by lia. constructor. lia.
    + replace c with (87 + (c - 97 + 10)) at 1 by lia. constructor. lia.
    + replace c with (55 + (c - 65 + 10)) at 1 by lia. constructor. lia.
  - intros [H Hk]. destruct H as [k H|k H|k H].
    + assert ((48 <=? 48 + k) && (48 + k <=? 57) = true) as -> by lia. replace (48 + k - 48) with k by lia. rewrite (proj2 (Z.ltb_lt k r)) by lia. reflexivity.
    + assert ((48 <=? 87 + k) && (87 + k <=? 57) = false) as -> by lia. assert ((97 <=? 87 + k) && (87 + k <=? 122) = true) as -> by lia.
      replace (87 + k - 97 + 10) with k by lia. rewrite (proj2 (Z.ltb_lt k r)) by lia. reflexivity.
    + assert ((48 <=? 55 + k) && (55 + k <=? 57) = false) as -> by lia. assert ((97 <=? 55 + k) && (55 + k <=? 122) = false) as -> by lia.
      assert ((65 <=? 55 + k) && (55 + k <=? 90) = true) as -> by lia.
      replace (55 + k - 65 + 10) with k by lia. rewrite (proj2 (Z.ltb_lt k r)) by lia. reflexivity.
Qed.
Lemma digit_nonneg : forall c k, digit_char c k -> 0 <= k <= 15.
Proof. intros c k [j H|j H|j H]; lia. Qed.
Lemma digit_unique : forall c k k', digit_char c k -> digit_char c k' -> k = k'.
Proof.
  intros c k k' H H'. pose proof (digit_nonneg _ _ H). pose proof (digit_nonneg _ _ H').
  assert (E : to_digit 16 c = Some k) by (apply to_digit_some; [lia|split; [assumption|lia]]).
  assert (E' : to_digit 16 c = Some k') by (apply to_digit_some; [lia|split; [assumption|lia]]). congruence.
Qed.

Lemma digits_app : forall r a n b m, digits r a n -> digits r b m -> 0 <= r -> digits r (a ++ b) (n * r ^ len b + m).
Proof.
  intros r a n b m Ha Hb Hr. induction Hb as [|ds m c k Hd IH Hc Hk].
  - rewrite app_nil_r. cbn. rewrite Z.mul_1_r, Z.add_0_r. exact Ha.
  - rewrite app_assoc. unfold len in *. rewrite app_length. cbn [length]. rewrite Nat2Z.inj_add. change (Z.of_nat 1) with 1.
    rewrite Z.pow_add_r by lia. rewrite Z.pow_1_r. replace (n * (r ^ Z.of_nat (length ds) * r) + (m * r + k)) with ((n * r ^ Z.of_nat (length ds) + m) * r + k) by ring.
    constructor; assumption.
Qed.
Lemma digits_one : forall r c k, digit_char c k -> k < r -> digits r [c] k.
Proof. intros r c k H Hk. change [c] with ([] ++ [c]). replace k with (0 * r + k) by lia. constructor; [constructor|assumption|assumption]. Qed.
Lemma digits_cons : forall r c k ds n, 0 <= r -> digit_char c k -> k < r -> digits r ds n -> digits r (c :: ds) (k * r ^ len ds + n).
Proof. intros r c k ds n Hr H Hk Hd. apply (digits_app r [c] k ds n); try assumption. apply digits_one; assumption. Qed.
Lemma digits_app_inv : forall r b a n, 0 <= r -> digits r (a ++ b) n -> exists p m, digits r a p /\ digits r b m /\ n = p * r ^ len b + m.
Proof.
  intros r b. induction b as [|c b IH] using rev_ind; intros a n Hr H.
  - rewrite app_nil_r in H. exists n, 0. split; [exact H|]. split; [constructor|]. cbn. lia.
  - rewrite app_assoc in H. inversion H as [E|ds m c' k Hd Hc Hk E E']; [destruct (a ++ b); discriminate|].
    apply app_inj_tail in E. destruct E as [-> ->]. destruct (IH a m Hr Hd) as [p [q [H1 [H2 H3]]]].
    exists p, (q * r + k). split; [exact H1|]. split; [constructor; assumption|].
    unfold len in *. rewrite app_length. cbn [length]. rewrite Nat2Z.inj_add. change (Z.of_nat 1) with 1. rewrite Z.pow_add_r by lia. rewrite H3, Z.pow_1_r. ring.
Qed.
Lemma digits_cons_inv : forall r c ds n, 0 <= r -> digits r (c :: ds) n -> exists k m, digit_char c k /\ k < r /\ digits r ds m /\ n = k * r ^ len ds + m.
Proof.
  intros r c ds n Hr H. destruct (digits_app_inv r ds [c] n Hr H) as [p [m [H1 [H2 H3]]]].
  inversion H1 as [E|ds' p' c' k Hd Hc Hk E E']. destruct ds' as [|a ds']; [|destruct ds'; discriminate]. injection E as ->.
  inversion Hd as [E2|ds2 p2 c2 k2 _ _ _ E2 E3]; [|destruct ds2; discriminate]. subst p'. cbn [Z.mul Z.add] in E'. subst p.
  exists k, m. repeat split; assumption.
Qed.
Lemma digits_bound : forall r ds n, 0 < r -> digits r ds n -> 0 <= n < r ^ len ds.
Proof.
  intros r ds n Hr H. induction H as [|ds n c k Hd IH Hc Hk]; [cbn; lia|].
  unfold len in *. rewrite app_length. cbn [length]. rewrite Nat2Z.inj_add. change (Z.of_nat 1) with 1. rewrite Z.pow_add_r, Z.pow_1_r by lia.
  pose proof (digit_nonneg _ _ Hc). nia.
Qed.
Lemma digits_unique : forall r ds n n', 0 <= r -> digits r ds n -> digits r ds n' -> n = n'.
Proof.
  intros r ds n n' Hr H. revert n'. induction H as [|ds n c k Hd IH Hc Hk]; intros n' H'.
  - inversion H' as [E|ds' p' c' k' _ _ _ E E']; [reflexivity|destruct ds'; discriminate].
  - inversion H' as [E|ds' p' c' k' Hd' Hc' Hk' E E']; [destruct ds; discriminate|]. apply app_inj_tail in E. destruct E as [-> ->].
    rewrite (IH p' Hd'), (digit_unique _ _ _ Hc Hc'). reflexivity.
Qed.
Definition is_digit (r c : Z) : Prop := exists k, digit_char c k /\ k < r.
Lemma digits_exist : forall r ds, 0 <= r -> Forall (is_digit r) ds -> exists n, digits r ds n.
Proof.
  intros r ds Hr H. induction H as [|c ds [k [Hc Hk]] H [n IH]]; [exists 0; constructor|].
  eexists. apply digits_cons; eassumption.
Qed.
Lemma digits_forall : forall r ds n, digits r ds n -> Forall (is_digit r) ds.
Proof. intros r ds n H. induction H as [|ds n c k Hd IH Hc Hk]; [constructor|]. apply Forall_app. split; [exact IH|]. constructor; [exists k; split; assumption|constructor]. Qed.
Lemma digit_not_point : forall k, ~ digit_char 46 k.
Proof. intros k H. remember 46 as c eqn:E. destruct H; lia. Qed.

(** ** The exponent suffix *)
Lemma exp_digits_spec : forall ds any e, Forall (is_digit 10) ds -> 0 <= e <= I32_MAX ->
  exists n, digits 10 ds n /\ exp_digits ds any e = Ok (any || negb (is_empty ds), Z.min I32_MAX (e * 10 ^ len ds + n)).
Proof.
  induction ds as [|c ds IH]; intros any e H He.
  - exists 0. split; [constructor|]. cbn [exp_digits is_empty negb]. rewrite orb_false_r. unfold len. cbn [length]. change (10 ^ Z.of_nat 0) with 1.
    rewrite Z.mul_1_r, Z.add_0_r, Z.min_r by lia. reflexivity.
  - inversion H as [|c' ds' [k [Hc Hk]] Hds]; subst.
    assert (E : to_digit 10 c = Some k) by (apply to_digit_some; [lia|split; assumption]).
    cbn [exp_digits]. rewrite E. pose proof (digit_nonneg _ _ Hc) as Hk0.
    set (e' := sat32 (sat32 (e * 10) + k)).
    assert (He' : e' = Z.min I32_MAX (e * 10 + k)) by (unfold e', sat32, I32_MIN, I32_MAX in *; lia).
    destruct (IH true e' Hds) as [n [Hn E2]]; [unfold I32_MAX in *; lia|].
    exists (k * 10 ^ len ds + n). split; [apply digits_cons; try assumption; lia|].
    rewrite E2. cbn [is_empty negb orb]. rewrite orb_true_r. f_equal. f_equal.
    rewrite He'. assert (L : len (c :: ds) = len ds + 1) by (unfold len; cbn [length]; lia). rewrite L.
    assert (0 <= len ds) by (unfold len; lia). rewrite Z.pow_add_r, Z.pow_1_r by lia.
    pose proof (digits_bound 10 ds n ltac:(lia) Hn). assert (1 <= 10 ^ len ds) by (assert (0 < 10 ^ len ds) by (apply Z.pow_pos_nonneg; lia); lia).
    destruct (Z_le_gt_dec (e * 10 + k) I32_MAX) as [X|X].
    + rewrite (Z.min_r I32_MAX (e * 10 + k)) by lia. f_equal. ring.
    + rewrite (Z.min_l I32_MAX (e * 10 + k)) by lia. clear -X H1 H0 He Hk0. set (w := 10 ^ len ds) in *. clearbody w. rewrite !Z.min_l; [reflexivity| |]; unfold I32_MAX in *; nia.
Qed.
Lemma exp_digits_err : forall ds any e, ~ Forall (is_digit 10) ds -> exp_digits ds any e = Err InvalidCharacterInExponent.
Proof.
  induction ds as [|c ds IH]; intros any e H; [exfalso; apply H; constructor|].
  cbn [exp_digits]. destruct (to_digit 10 c) as [k|] eqn:E; [|reflexivity]. apply IH. intro X. apply H. constructor; [|exact X].
  exists k. apply to_digit_some; [lia|exact E].
Qed.

(** ** Scanning the significand *)
Definition mchar (r c : Z) : Prop := c = 46 \/ is_digit r c.
Lemma is_digit_dec : forall r c, r <= 16 -> is_digit r c \/ (~ is_digit r c /\ to_digit r c = None).
Proof.
  intros r c Hr. destruct (to_digit r c) as [k|] eqn:E.
  - left. exists k. apply to_digit_some; assumption.
  - right. split; [|reflexivity]. intros [k H]. apply to_digit_some in H; [|assumption]. congruence.
Qed.
Lemma split_text : forall r s, r <= 16 -> exists pre rest, s = pre ++ rest /\ Forall (mchar r) pre /\
  (rest = [] \/ exists c u, rest = c :: u /\ c <> 46 /\ ~ is_digit r c).
Proof.
  intros r s Hr. induction s as [|c s [pre [rest [E [F R]]]]].
  - exists [], []. split; [reflexivity|]. split; [constructor|]. left. reflexivity.
  - assert (D : mchar r c \/ (c <> 46 /\ ~ is_digit r c)).
    { destruct (Z.eq_dec c 46) as [->|N]; [left; left; reflexivity|]. destruct (is_digit_dec r c Hr) as [H|[H _]]; [left; right; exact H|right; split; assumption]. }
    destruct D as [D|D].
    + exists (c :: pre), rest. split; [rewrite E; reflexivity|]. split; [constructor; assumption|exact R].
    + exists [], (c :: s). split; [reflexivity|]. split; [constructor|]. right. exists c, s. split; [reflexivity|exact D].
Qed.
Lemma classify_prefix : forall r pre, r <= 16 -> Forall (mchar r) pre ->
  Forall (is_digit r) pre \/
  exists ip fp, Forall (is_digit r) ip /\ (
    (pre = ip ++ 46 :: fp /\ Forall (is_digit r) fp) \/
    (exists u, pre = ip ++ 46 :: fp ++ 46 :: u /\ Forall (is_digit r) fp)).
Proof.
  intros r pre Hr H. induction H as [|c pre Hc H IH]; [left; constructor|].
  destruct (Z.eq_dec c 46) as [->|N].
  - right. destruct IH as [IH|[ip [fp [F [[E G]|[u [E G]]]]]]].
    + exists [], pre. split; [constructor|]. left. split; [reflexivity|exact IH].
    + exists [], ip. split; [constructor|]. right. exists fp. split; [rewrite E; reflexivity|exact F].
    + exists [], ip. split; [constructor|]. right. exists (fp ++ 46 :: u). split; [rewrite E; reflexivity|exact F].
  - destruct Hc as [Hc|Hc]; [contradiction|]. destruct IH as [IH|[ip [fp [F [[E G]|[u [E G]]]]]]].
    + left. constructor; assumption.
    + right. exists (c :: ip), fp. split; [constructor; assumption|]. left. split; [rewrite E; reflexivity|exact G].
    + right. exists (c :: ip), fp. split; [constructor; assumption|]. right. exists u. split; [rewrite E; reflexivity|exact G].
Qed.

(** ** The state of the hexadecimal scan *)
Definition first_pos (p k : Z) (d : option Z) : Z :=
  match d with
  | None => p - k
  | Some d => if p - d - 1 <? k then p - k - 1 else p - k
  end.
Definition hex_sig (n k : Z) : Z := if k <=? 32 then n * 2 ^ (128 - 4 * k) else n / 16 ^ (k - 32).
Definition hex_loss (n k : Z) : option Loss := if k <=? 32 then None else Some (loss_of (n mod 16 ^ (k - 32)) (16 ^ (k - 32))).
Record hinv (L p : Z) (any : bool) (n : Z) (d : option Z) (st : hex_state) : Prop := {
  hi_exp : h_exp st = 0;
  hi_has : h_has_exp st = false;
  hi_any : h_any_digits st = any;
  hi_dot : h_dot st = match d with None => L | Some d => d end;
  hi_dotp : match d with None => True | Some d => 0 <= d < p end;
  hi_n : 0 <= n;
  hi_zero : n = 0 -> h_first st = None /\ h_sig st = 0 /\ h_bit_pos st = 128 /\ h_loss st = None;
  hi_pos : 0 < n -> exists k, 1 <= k /\ 16 ^ (k - 1) <= n < 16 ^ k /\ h_bit_pos st = 128 - 4 * k /\
    h_first st = Some (first_pos p k d) /\ h_sig st = hex_sig n k /\ h_loss st = hex_loss n k
}.

Lemma pow16 : forall k, 0 <= k -> 16 ^ k = 2 ^ (4 * k).
Proof. intros k Hk. change 16 with (2 ^ 4). rewrite <- Z.pow_mul_r by lia. reflexivity. Qed.

Lemma loss_of_step : forall r D v, 0 <= r < D -> 0 <= v < 16 -> 2 <= D -> Z.even D = true ->
  loss_of (16 * r + v) (16 * D) =
  (if negb (v =? 0) then
     let l := if loss_eqb (loss_of r D) ExactlyZero then LessThanHalf else loss_of r D in
     if loss_eqb l ExactlyHalf then MoreThanHalf else l
   else loss_of r D).
Proof.
  intros r D v Hr Hv HD Ev. apply Z.even_spec in Ev. destruct Ev as [h Eh]. unfold loss_of.
  destruct (Z.eqb_spec v 0) as [->|Nv]; cbn [negb].
  - rewrite Z.add_0_r. destruct (Z.eqb_spec r 0) as [->|Nr]; [reflexivity|].
    rewrite (proj2 (Z.eqb_neq (16 * r) 0)) by lia.
    destruct (Z.compare_spec (2 * r) D); destruct (Z.compare_spec (2 * (16 * r)) (16 * D)); try lia; reflexivity.
  - rewrite (proj2 (Z.eqb_neq (16 * r + v) 0)) by lia.
    destruct (Z.eqb_spec r 0) as [->|Nr]; cbn [loss_eqb].
    + destruct (Z.compare_spec (2 * (16 * 0 + v)) (16 * D)); try lia. reflexivity.
    + destruct (Z.compare_spec (2 * r) D); destruct (Z.compare_spec (2 * (16 * r + v)) (16 * D)); try lia; reflexivity.
Qed.

Lemma hex_digit_step : forall L p any n d st v, hinv L p any n d st -> 0 <= v < 16 ->
  exists st', hex_digit p v st = Ret st' /\ hinv L (p + 1) true (n * 16 + v) d st'.
Proof.
  intros L p any n d st v H Hv. destruct H as [I1 I2 I3 I4 I5 I6 I7 I8].
  assert (D' : match d with None => True | Some d => 0 <= d < p + 1 end) by (destruct d; lia).
  unfold hex_digit. destruct (Z.eq_dec n 0) as [->|N].
  - destruct (I7 eq_refl) as [F [Sg [B Lo]]]. rewrite F. destruct (Z.eq_dec v 0) as [->|V].
    + eexists. split; [reflexivity|]. constructor; cbn [h_exp h_has_exp h_any_digits h_dot h_first h_sig h_bit_pos h_loss]; try assumption; try reflexivity; try lia. intros _. repeat split; assumption.
    + assert (X : exists st', (let bit_pos := h_bit_pos st - 4 in
          if 0 <=? bit_pos then
            let! d := shl128 v bit_pos in
            Ret (mkHex (Z.lor (h_sig st) d) (h_exp st) true (h_has_exp st) bit_pos (h_loss st) (Some p) (h_dot st))
          else Ret st) = Ret st' /\ hinv L (p + 1) true (0 * 16 + v) d st').
      { rewrite B, Sg. change (128 - 4) with 124. cbn [Z.leb Z.compare]. rewrite shl128_ret by lia. cbn [bind]. rewrite Z.lor_0_l.
        eexists. split; [reflexivity|].
        constructor; cbn [h_exp h_has_exp h_any_digits h_dot h_first h_sig h_bit_pos h_loss]; try assumption; try reflexivity; try lia. intros _. exists 1. split; [lia|]. split; [lia|]. split; [reflexivity|].
        split; [|split].
        - f_equal. unfold first_pos. destruct d as [d|]; [|lia]. destruct (Z.ltb_spec (p + 1 - d - 1) 1); lia.
        - unfold hex_sig. change (1 <=? 32) with true. cbn iota. change (128 - 4 * 1) with 124. replace (0 * 16 + v) with v by lia. rewrite Z.shiftl_mul_pow2 by lia. unfold wrap128, LIMB_MOD.
          apply Z.mod_small. lia.
        - exact Lo. }
      destruct v as [|v|v]; try lia. cbn zeta in X. destruct X as [st' [X1 X2]]. exists st'. split; [|exact X2].
      cbn zeta. rewrite <- X1. rewrite B. reflexivity.
  - destruct (I8 ltac:(lia)) as [k [K1 [K2 [B [F [Sg Lo]]]]]].
    assert (P1 : 16 ^ (k + 1) = 16 * 16 ^ k) by (rewrite <- Z.pow_succ_r by lia; reflexivity).
    assert (P2 : 16 ^ k = 16 * 16 ^ (k - 1)) by (rewrite <- Z.pow_succ_r by lia; f_equal; lia).
    rewrite F.
    assert (Fp : first_pos p k d = first_pos (p + 1) (k + 1) d).
    { unfold first_pos. destruct d as [d|]; [|lia]. destruct (Z.ltb_spec (p - d - 1) k), (Z.ltb_spec (p + 1 - d - 1) (k + 1)); lia. }
    set (q := first_pos p k d) in *.
    assert (X : forall sg lo, sg = hex_sig (n * 16 + v) (k + 1) -> lo = hex_loss (n * 16 + v) (k + 1) ->
      hinv L (p + 1) true (n * 16 + v) d (mkHex sg (h_exp st) true (h_has_exp st) (h_bit_pos st - 4) lo (Some q) (h_dot st))).
    { intros sg lo -> ->. constructor; cbn [h_exp h_has_exp h_any_digits h_dot h_first h_sig h_bit_pos h_loss]; try assumption; try reflexivity; try lia.
      intros _. exists (k + 1). split; [lia|]. split; [replace (k + 1 - 1) with k by lia; lia|]. split; [lia|]. split; [rewrite Fp; reflexivity|]. split; reflexivity. }
    assert (G : exists st', (let bit_pos := h_bit_pos st - 4 in
      if 0 <=? bit_pos then
        let! d := shl128 v bit_pos in
        Ret (mkHex (Z.lor (h_sig st) d) (h_exp st) true (h_has_exp st) bit_pos (h_loss st) (Some q) (h_dot st))
      else
        let loss :=
          match h_loss st with
          | Some l =>
            if negb (v =? 0) then
              let l := if loss_eqb l ExactlyZero then LessThanHalf else l in
              let l := if loss_eqb l ExactlyHalf then MoreThanHalf else l in
              l
            else l
          | None =>
            if v =? 0 then ExactlyZero
            else if v <=? 7 then LessThanHalf
            else if v =? 8 then ExactlyHalf
            else MoreThanHalf
          end in
        Ret (mkHex (h_sig st) (h_exp st) true (h_has_exp st) bit_pos (Some loss) (Some q) (h_dot st))) = Ret st' /\
      hinv L (p + 1) true (n * 16 + v) d st').
    { cbv zeta. destruct (Z_le_gt_dec k 31) as [K|K].
      - rewrite (proj2 (Z.leb_le 0 (h_bit_pos st - 4))) by lia. rewrite shl128_ret by lia. cbn [bind].
        eexists. split; [reflexivity|]. apply X.
        + rewrite Sg, B. unfold hex_sig. rewrite !(proj2 (Z.leb_le _ 32)) by lia.
          replace (128 - 4 * k - 4) with (128 - 4 * (k + 1)) by lia. set (j := 128 - 4 * (k + 1)).
          assert (0 <= j) by lia. rewrite Z.shiftl_mul_pow2 by lia.
          assert (2 ^ 4 * 2 ^ j <= 2 ^ 128) by (rewrite <- Z.pow_add_r by lia; apply Z.pow_le_mono_r; lia).
          assert (0 < 2 ^ j) by (apply Z.pow_pos_nonneg; lia).
          unfold wrap128, LIMB_MOD. rewrite Z.mod_small by nia.
          replace (128 - 4 * k) with (j + 4) by lia. rewrite Z.pow_add_r by lia.
          replace (n * (2 ^ j * 2 ^ 4)) with (n * 2 ^ (j + 4)) by (rewrite Z.pow_add_r by lia; ring).
          rewrite lor_disjoint by (try lia; rewrite Z.pow_add_r by lia; nia). rewrite Z.pow_add_r by lia. ring.
        + rewrite Lo. unfold hex_loss. rewrite !(proj2 (Z.leb_le _ 32)) by lia. reflexivity.
      - rewrite (proj2 (Z.leb_gt 0 (h_bit_pos st - 4))) by lia. eexists. split; [reflexivity|]. apply X.
        + rewrite Sg. unfold hex_sig. rewrite (proj2 (Z.leb_gt (k + 1) 32)) by lia.
          destruct (Z.eq_dec k 32) as [->|K'].
          * change (32 <=? 32) with true. cbn iota. change (128 - 4 * 32) with 0. change (16 ^ (32 + 1 - 32)) with 16. rewrite Z.mul_1_r.
            apply Z.div_unique with v; lia.
          * rewrite (proj2 (Z.leb_gt k 32)) by lia. replace (k + 1 - 32) with (k - 32 + 1) by lia. rewrite Z.pow_add_r, Z.pow_1_r, Z.mul_comm by lia.
            assert (0 < 16 ^ (k - 32)) by (apply Z.pow_pos_nonneg; lia).
            rewrite (Z.mul_comm (16 ^ (k - 32))), <- Z.div_div by lia. f_equal. apply Z.div_unique with v; lia.
        + rewrite Lo. unfold hex_loss. rewrite (proj2 (Z.leb_gt (k + 1) 32)) by lia.
          destruct (Z.eq_dec k 32) as [->|K'].
          * change (32 <=? 32) with true. cbn iota. change (16 ^ (32 + 1 - 32)) with 16. rewrite Z.add_comm, Z.mod_add by lia. rewrite Z.mod_small by lia.
            unfold loss_of. destruct (Z.eqb_spec v 0); [reflexivity|]. destruct (Z.leb_spec v 7), (Z.compare_spec (2 * v) 16), (Z.eqb_spec v 8); try lia; reflexivity.
          * rewrite (proj2 (Z.leb_gt k 32)) by lia. replace (k + 1 - 32) with (k - 32 + 1) by lia. rewrite Z.pow_add_r, Z.pow_1_r by lia.
            assert (0 < 16 ^ (k - 32)) by (apply Z.pow_pos_nonneg; lia). set (D := 16 ^ (k - 32)) in *.
            assert (HD : D = 16 * 16 ^ (k - 33)) by (unfold D; rewrite <- Z.pow_succ_r by lia; f_equal; lia).
            assert (0 < 16 ^ (k - 33)) by (apply Z.pow_pos_nonneg; lia).
            pose proof (Z.mod_pos_bound n D ltac:(lia)) as Hr. pose proof (Z.div_mod n D ltac:(lia)) as Hdm.
            assert (Em : (n * 16 + v) mod (D * 16) = 16 * (n mod D) + v) by (symmetry; apply Z.mod_unique with (n / D); lia).
            rewrite Em, (Z.mul_comm D 16). rewrite loss_of_step; [reflexivity|lia|lia|lia|rewrite HD, Z.even_mul; reflexivity]. }
    exact G.
Qed.

Lemma hex_digits_step : forall ds L p any n d st rest, hinv L p any n d st -> Forall (is_digit 16) ds ->
  exists m st', digits 16 ds m /\ hex_loop L p (ds ++ rest) st = hex_loop L (p + len ds) rest st' /\
    hinv L (p + len ds) (any || negb (is_empty ds)) (n * 16 ^ len ds + m) d st'.
Proof.
  induction ds as [|c ds IH]; intros L p any n d st rest H F.
  - exists 0, st. split; [constructor|]. cbn [app is_empty negb]. unfold len. cbn [length]. change (16 ^ Z.of_nat 0) with 1. rewrite !Z.add_0_r, Z.mul_1_r, orb_false_r.
    split; [reflexivity|exact H].
  - inversion F as [|c' ds' [v [Hc Hv]] F']; subst. pose proof (digit_nonneg _ _ Hc) as Hv0.
    assert (E : to_digit 16 c = Some v) by (apply to_digit_some; [lia|split; assumption]).
    destruct (hex_digit_step L p any n d st v H ltac:(lia)) as [st1 [E1 H1]].
    destruct (IH L (p + 1) true (n * 16 + v) d st1 rest H1 F') as [m [st' [Dm [E2 H2]]]].
    assert (Lc : len (c :: ds) = len ds + 1) by (unfold len; cbn [length]; lia). assert (0 <= len ds) by (unfold len; lia).
    exists (v * 16 ^ len ds + m), st'. split; [apply digits_cons; try assumption; lia|]. split.
    + cbn [app hex_loop]. assert ((c =? ch "."%string) = false) as ->.
      { apply Z.eqb_neq. intro X. subst c. exact (digit_not_point _ Hc). }
      rewrite E, E1. cbn [bind]. rewrite E2. f_equal. lia.
    + rewrite Lc. cbn [is_empty negb orb]. rewrite orb_true_r. replace (p + (len ds + 1)) with (p + 1 + len ds) by lia.
      rewrite Z.pow_add_r, Z.pow_1_r by lia. replace (n * (16 ^ len ds * 16) + (v * 16 ^ len ds + m)) with ((n * 16 + v) * 16 ^ len ds + m) by ring.
      destruct ds; exact H2.
Qed.

Lemma hex_dot_step : forall L p any n st rest, hinv L p any n None st -> 0 <= p < L ->
  exists st', hex_loop L p (46 :: rest) st = hex_loop L (p + 1) rest st' /\ hinv L (p + 1) any n (Some p) st'.
Proof.
  intros L p any n st rest H Hp. destruct H as [I1 I2 I3 I4 I5 I6 I7 I8]. cbn [hex_loop]. change (46 =? ch "."%string) with true. cbn iota.
  rewrite I4, Z.eqb_refl. cbn [negb]. eexists. split; [reflexivity|].
  constructor; cbn [h_exp h_has_exp h_any_digits h_dot h_first h_sig h_bit_pos h_loss]; try assumption; try reflexivity; try lia.
  intro Hn. destruct (I8 Hn) as [k [K1 [K2 [B [F [Sg Lo]]]]]]. exists k. split; [lia|]. split; [lia|]. split; [exact B|]. split; [|split; assumption].
  rewrite F. f_equal. unfold first_pos. destruct (Z.ltb_spec (p + 1 - p - 1) k); lia.
Qed.
Lemma hex_second_dot : forall L p any n d st rest, hinv L p any n (Some d) st -> p <= L ->
  hex_loop L p (46 :: rest) st = Ret (Err StringContainsMultipleDots).
Proof.
  intros L p any n d st rest H Hp. destruct H as [I1 I2 I3 I4 I5 I6 I7 I8]. cbn [hex_loop]. change (46 =? ch "."%string) with true. cbn iota.
  rewrite I4. rewrite (proj2 (Z.eqb_neq d L)) by lia. reflexivity.
Qed.
Lemma hex_start : forall L, hinv L 0 false 0 None (mkHex 0 0 false false LIMB_BITS None None L).
Proof. intro L. constructor; cbn; try reflexivity; try lia. intros _. repeat split. Qed.

(** ** Values far out of range round alike *)
Lemma correct_big : forall S m v v' zs res, sem_ok S ->
  (bpow r2 (MAX_EXP S + 1) <= v)%R -> (bpow r2 (MAX_EXP S + 1) <= v')%R ->
  correctly_rounded S m v zs res -> correctly_rounded S m v' zs res.
Proof.
  intros S m v v' zs [st f] HS Hv Hv' [W [G [_ H]]]. pose proof (bpow_gt_0 r2 (MAX_EXP S + 1)) as B.
  assert (R1 : (max_finite S < Rabs (rounded S m v))%R) by (apply rounded_above_max; [exact HS|]; rewrite Rabs_pos_eq; lra).
  assert (R2 : (max_finite S < Rabs (rounded S m v'))%R) by (apply rounded_above_max; [exact HS|]; rewrite Rabs_pos_eq; lra).
  split; [exact W|]. split; [|split].
  - destruct G as [_ [G _]]. split; [intro; lra|]. split; [intros _; apply G; lra|intro; lra].
  - intro X. lra.
  - intros _. exact (H R1).
Qed.
Lemma tiny_rounded : forall S m v, sem_ok S -> (0 < v < bpow r2 (MIN_EXP S - PRECISION S))%R ->
  rounded S m v = (IZR (cond_incr (goes_away m false LessThanHalf false) 0) * bpow r2 (MIN_EXP S - (PRECISION S - 1)))%R /\
  rounded S m v <> v.
Proof.
  intros S m v HS [H0 H1]. pose proof HS as [Hp Hmin Hmax _]. set (e := MIN_EXP S - (PRECISION S - 1)).
  assert (Eb : bpow r2 e = (2 * bpow r2 (MIN_EXP S - PRECISION S))%R).
  { unfold e. replace (MIN_EXP S - (PRECISION S - 1)) with (1 + (MIN_EXP S - PRECISION S)) by lia. rewrite bpow_plus. change (bpow r2 1) with 2%R. ring. }
  assert (Hb : between 0 e v LessThanHalf).
  { unfold between, inbetween_float, F2R. cbn [Fnum Fexp loc_of]. rewrite Rmult_0_l. change (0 + 1) with 1. rewrite Rmult_1_l.
    constructor; [lra|]. apply Rcompare_Lt. lra. }
  assert (Hc : cexp r2 (fexp S) v = e).
  { unfold e. apply (cexp_between S 0 (MIN_EXP S) v LessThanHalf HS H0); [|lia|left; reflexivity|exact Hb]. split; [lia|]. apply Z.pow_pos_nonneg; lia. }
  split.
  - pose proof (rounded_between S m false v 0 e LessThanHalf H0 Hc Hb) as R. exact R.
  - pose proof (rounded_exact_iff S m false v 0 e LessThanHalf H0 Hc Hb) as X. cbn [sgnr] in X. intro E. apply X in E. discriminate.
Qed.
Lemma correct_tiny : forall S m v v' zs res, sem_ok S ->
  (0 < v < bpow r2 (MIN_EXP S - PRECISION S))%R -> (0 < v' < bpow r2 (MIN_EXP S - PRECISION S))%R ->
  correctly_rounded S m v zs res -> correctly_rounded S m v' zs res.
Proof.
  intros S m v v' zs [st f] HS Hv Hv' [W [G [H1 H2]]].
  destruct (tiny_rounded S m v HS Hv) as [R1 N1]. destruct (tiny_rounded S m v' HS Hv') as [R2 N2].
  assert (E : rounded S m v = rounded S m v') by congruence.
  split; [exact W|]. split; [|split].
  - destruct G as [_ [G _]]. split; [intro; lra|]. split; [intros _; apply G; lra|intro; lra].
  - cbv zeta in H1. rewrite <- E. intro X. destruct (H1 X) as [F1 [F2 [F3 [F4 F5]]]]. split; [exact F1|]. split; [exact F2|]. split; [intro Y; congruence|].
    split; intro Y; [apply F4|apply F5]; exact N1.
  - cbv zeta in H2. rewrite <- E. exact H2.
Qed.
Lemma crate_correct_pos : forall S m x zs res, (0 <= x)%R -> crate_rounded S m x zs res -> correctly_rounded S m x zs res.
Proof. intros S m x zs res Hx. apply crate_rounded_correct. intros _ H. lra. Qed.

(** ** The whole scan *)
Lemma hex_mantissa : forall t n k rest, mantissa 16 t n k -> let L := len (t ++ rest) in
  exists st d, hex_loop L 0 (t ++ rest) (mkHex 0 0 false false LIMB_BITS None None L) = hex_loop L (len t) rest st /\
    hinv L (len t) true n d st /\ (match d with None => k = 0 | Some d => len t = d + 1 + k end) /\ 0 <= k.
Proof.
  intros t n k rest H L. pose proof (hex_start L) as H0. destruct H as [ds n Hd N|ip fp n Hd N].
  - destruct (hex_digits_step ds L 0 false 0 None _ rest H0 (digits_forall _ _ _ Hd)) as [m [st [Hm [E I]]]].
    rewrite (digits_unique 16 ds n m ltac:(lia) Hd Hm). exists st, None. split; [rewrite E; reflexivity|]. split; [|split; [reflexivity|lia]].
    rewrite Z.mul_0_l in I. destruct ds; [contradiction|exact I].
  - assert (Hn : len ((ip ++ 46 :: fp) ++ rest) = L) by reflexivity.
    destruct (digits_app_inv 16 fp ip n ltac:(lia) Hd) as [p [q [D1 [D2 En]]]].
    rewrite <- app_assoc. cbn [app].
    destruct (hex_digits_step ip L 0 false 0 None _ (46 :: fp ++ rest) H0 (digits_forall _ _ _ D1)) as [m [st [Hm [E I]]]].
    rewrite E. rewrite <- (digits_unique 16 ip p m ltac:(lia) D1 Hm) in I. rewrite Z.mul_0_l in I. rewrite !Z.add_0_l in I |- *. 
    assert (HL : 0 <= len ip < L).
    { unfold L, len. rewrite !app_length. cbn [length]. lia. }
    destruct (hex_dot_step L (len ip) _ p st (fp ++ rest) I HL) as [st1 [E1 I1]]. rewrite E1.
    destruct (hex_digits_step fp L (len ip + 1) _ p _ st1 rest I1 (digits_forall _ _ _ D2)) as [m2 [st2 [Hm2 [E2 I2]]]].
    rewrite E2. rewrite <- (digits_unique 16 fp q m2 ltac:(lia) D2 Hm2), <- En in I2.
    assert (Lt : len (ip ++ 46 :: fp) = len ip + 1 + len fp) by (unfold len; rewrite app_length; cbn [length]; lia).
    exists st2, (Some (len ip)). rewrite Lt. split; [reflexivity|]. split; [|split; [unfold len; lia|lia]].
    replace true with (false || negb (is_empty ip) || negb (is_empty fp)); [exact I2|]. destruct ip; [|reflexivity]. destruct fp; [exfalso; apply N|]; reflexivity.
Qed.

Lemma exp_sign_spec : forall u e, exponent u e ->
  exists minus ds n, exp_sign u = (minus, ds) /\ digits 10 ds n /\ e = (if minus : bool then - n else n) /\ (has_digit u -> ds <> []) /\ (ds <> [] -> has_digit u).
Proof.
  intros u e H.
  assert (Hd : forall ds n, digits 10 ds n -> ds <> [] -> exists c k, In c ds /\ digit_char c k).
  { intros ds n D N. destruct ds as [|c ds]; [contradiction|]. apply digits_forall in D. inversion D as [|c' ds' [k [Hk _]] _]; subst. exists c, k. split; [left; reflexivity|exact Hk]. }
  destruct H as [ds e D|ds e D|ds e D].
  - exists false, ds, e. split; [|split; [exact D|split; [reflexivity|split]]].
    + destruct ds as [|c ds]; [reflexivity|]. apply digits_forall in D. inversion D as [|c' ds' [k [Hk _]] _]; subst.
      unfold exp_sign. change (ch "-"%string) with 45. change (ch "+"%string) with 43.
      rewrite (proj2 (Z.eqb_neq c 45)), (proj2 (Z.eqb_neq c 43)) by (destruct Hk; lia). reflexivity.
    + intros [c [k [I _]]] ->. destruct I.
    + intro N. destruct (Hd _ _ D N) as [c [k X]]. exists c, k. exact X.
  - exists false, ds, e. split; [reflexivity|]. split; [exact D|]. split; [reflexivity|]. split.
    + intros [c [k [[<-|I] K]]] ->; [|destruct I]. clear -K. remember 43 as c eqn:E. destruct K; lia.
    + intro N. destruct (Hd _ _ D N) as [c [k [X Y]]]. exists c, k. split; [right; exact X|exact Y].
  - exists true, ds, e. split; [reflexivity|]. split; [exact D|]. split; [reflexivity|]. split.
    + intros [c [k [[<-|I] K]]] ->; [|destruct I]. clear -K. remember 45 as c eqn:E. destruct K; lia.
    + intro N. destruct (Hd _ _ D N) as [c [k [X Y]]]. exists c, k. split; [right; exact X|exact Y].
Qed.

Lemma hex_not_p : forall c, c = 112 \/ c = 80 -> (c =? ch "."%string) = false /\ to_digit 16 c = None /\ ((c =? ch "p"%string) || (c =? ch "P"%string)) = true.
Proof. intros c [->| ->]; repeat split. Qed.

(** the significand, at its exponent, brackets the value *)
Lemma hex_between : forall n k E, 0 < n -> 1 <= k -> 16 ^ (k - 1) <= n < 16 ^ k ->
  between (hex_sig n k) (E + 4 * k - 128) (IZR n * bpow r2 E) (match hex_loss n k with Some l => l | None => ExactlyZero end) /\
  2 ^ 124 <= hex_sig n k < 2 ^ 128.
Proof.
  intros n k E Hn Hk Hb. rewrite !pow16 in Hb by lia. unfold hex_sig, hex_loss. destruct (Z.leb_spec k 32) as [K|K].
  - split.
    + apply between_exact. rewrite mult_IZR, IZR_pow2 by lia. rewrite Rmult_assoc, <- bpow_plus. f_equal. f_equal. lia.
    + assert (0 < 2 ^ (128 - 4 * k)) by (apply Z.pow_pos_nonneg; lia). split.
      * replace (2 ^ 124) with (2 ^ (4 * (k - 1)) * 2 ^ (128 - 4 * k)) by (rewrite <- Z.pow_add_r by lia; f_equal; lia). nia.
      * replace (2 ^ 128) with (2 ^ (4 * k) * 2 ^ (128 - 4 * k)) by (rewrite <- Z.pow_add_r by lia; f_equal; lia). nia.
  - rewrite pow16 by lia. assert (0 < 2 ^ (4 * (k - 32))) by (apply Z.pow_pos_nonneg; lia). split.
    + apply between_frac; [lia|]. rewrite IZR_pow2 by lia.
      replace (E + 4 * k - 128) with (4 * (k - 32) + E) by lia. rewrite bpow_plus. ring.
    + split.
      * apply Z.div_le_lower_bound; [lia|]. rewrite <- Z.pow_add_r by lia. replace (4 * (k - 32) + 124) with (4 * (k - 1)) by lia. lia.
      * apply Z.div_lt_upper_bound; [lia|]. rewrite <- Z.pow_add_r by lia. replace (4 * (k - 32) + 128) with (4 * k) by lia. lia.
Qed.

Lemma mantissa_bound : forall r t n k, 2 <= r -> mantissa r t n k -> 0 <= n < r ^ len t /\ 0 <= k <= len t.
Proof.
  intros r t n k Hr H. destruct H as [ds n D N|ip fp n D N].
  - pose proof (digits_bound r ds n ltac:(lia) D). unfold len in *. lia.
  - pose proof (digits_bound r _ n ltac:(lia) D) as B.
    assert (r ^ len (ip ++ fp) <= r ^ len (ip ++ 46 :: fp)) by (apply Z.pow_le_mono_r; [lia|]; unfold len; rewrite !app_length; cbn [length]; lia).
    split; [lia|]. unfold len. rewrite app_length. cbn [length]. lia.
Qed.

Theorem from_hex_spec : forall S s x m, sem_ok S -> PRECISION S <= 125 -> hex_body s x -> len s + 2 ^ 20 <= 2 ^ 29 ->
  exists res, from_hexadecimal_string S s m = Ret (Ok res) /\ correctly_rounded S m x false res.
Proof.
  intros S s x m HS Hp125 H Hlen. pose proof HS as [Hp Hmin Hmax _]. destruct H as [t n kf c u e Ht Hc He Hd].
  destruct (hex_mantissa t n kf (c :: u) Ht) as [st [d [E1 [I [Hdk Hkf]]]]]. set (L := len (t ++ c :: u)) in *.
  assert (HL : L = len t + 1 + len u) by (unfold L, len; rewrite app_length; cbn [length]; lia).
  assert (Hlt : 0 <= len t) by (unfold len; lia). assert (Hlu : 0 <= len u) by (unfold len; lia).
  destruct (hex_not_p c Hc) as [C1 [C2 C3]].
  destruct (exp_sign_spec u e He) as [minus [ds [n' [X1 [X2 [X3 [X4 _]]]]]]]. specialize (X4 Hd).
  destruct (exp_digits_spec ds false 0 (digits_forall _ _ _ X2) ltac:(unfold I32_MAX; lia)) as [n2 [X5 X6]].
  rewrite <- (digits_unique 10 ds n' n2 ltac:(lia) X2 X5) in X6. clear n2 X5.
  pose proof (digits_bound 10 ds n' ltac:(lia) X2) as Hn'.
  assert (Hne : is_empty ds = false) by (destruct ds; [contradiction|reflexivity]).
  rewrite Hne, Z.mul_0_l, Z.add_0_l in X6. cbn [negb orb] in X6.
  set (es := Z.min I32_MAX n') in *.
  assert (Hes : 0 <= es <= I32_MAX) by (unfold es, I32_MAX; lia).
  destruct (mantissa_bound 16 t n kf ltac:(lia) Ht) as [Hnb Hkb].
  destruct I as [I1 I2 I3 I4 I5 I6 I7 I8].
  set (dot := match d with None => len t | Some d => d end).
  set (E0 := if minus then - es else es).
  assert (Hloop : hex_loop L 0 (t ++ c :: u) (mkHex 0 0 false false LIMB_BITS None None L) =
     Ret (Ok (mkHex (h_sig st) E0 true true (h_bit_pos st) (h_loss st) (h_first st) dot))).
  { rewrite E1. cbn [hex_loop]. rewrite C1, C2, C3, I3. cbn [negb]. rewrite X1, I2, I1, X6. cbn [negb].
    assert ((if minus then chk32 (- es) else Ret es) = Ret E0) as ->.
    { unfold E0. destruct minus; [|reflexivity]. apply chk32_ret. unfold I32_MAX in Hes. lia. }
    cbn [bind]. f_equal. f_equal. f_equal. rewrite I4. unfold dot. destruct d as [d|]; [|rewrite Z.eqb_refl; reflexivity].
    rewrite (proj2 (Z.eqb_neq d L)) by lia. reflexivity. }
  unfold from_hexadecimal_string. fold L. rewrite Hloop. cbn [rbind bind h_any_digits h_has_exp negb h_first h_dot h_exp h_loss h_sig].
  destruct (Z.eq_dec n 0) as [N0|N0].
  - destruct (I7 N0) as [-> _]. eexists. split; [reflexivity|]. rewrite N0, Rmult_0_l. change 0%R with (value S (ZERO S)). apply cr_exact; [exact HS|exact (wf_zero S false HS)|right; reflexivity|reflexivity].
  - destruct (I8 ltac:(lia)) as [k [K1 [K2 [B [-> [Sg Lo]]]]]].
    assert (Hk : k <= len t).
    { destruct (Z_le_gt_dec k (len t)) as [Y|Y]; [exact Y|exfalso]. assert (16 ^ len t <= 16 ^ (k - 1)) by (apply Z.pow_le_mono_r; lia). lia. }
    set (q := first_pos (len t) k d).
    assert (Hadj : (if q <? dot then chk32 (dot - q)
         else
           let! d := usub q dot in
           let! d := usub d 1 in
           let! d := chk32 d in
           chk32 (- d)) = Ret (k - kf)).
    { unfold q, dot, first_pos. destruct d as [d|].
      - destruct (Z.ltb_spec (len t - d - 1) k) as [Y|Y].
        + rewrite (proj2 (Z.ltb_lt _ _)) by lia. rewrite chk32_ret by lia. f_equal. lia.
        + rewrite (proj2 (Z.ltb_ge _ _)) by lia. rewrite usub_ret by lia. cbn [bind]. rewrite usub_ret by lia. cbn [bind]. rewrite chk32_ret by lia. cbn [bind].
          rewrite chk32_ret by lia. f_equal. lia.
      - rewrite (proj2 (Z.ltb_lt _ _)) by lia. rewrite chk32_ret by lia. f_equal. lia. }
    rewrite Hadj. cbn [bind].
    set (adj := sat32 (sat32 (sat32 (sat32 ((k - kf) * 4) - 1) + PRECISION S) - LIMB_BITS)).
    assert (Ha : adj = 4 * (k - kf) - 1 + PRECISION S - 128).
    { unfold adj, LIMB_BITS. unfold sat32, I32_MIN, I32_MAX. clear -Hk K1 Hkb Hlen HL Hlu Hp. lia. }
    set (ef := sat32 (E0 + adj)).
    assert (Hef : - 2 ^ 31 <= ef <= 2 ^ 31 - 1) by (unfold ef, sat32, I32_MIN, I32_MAX; lia).
    set (E' := ef - adj - 4 * kf).
    destruct (hex_between n k E' ltac:(lia) K1 K2) as [Bt Bs].
    assert (Hl : match h_loss st with Some l => l | None => ExactlyZero end = match hex_loss n k with Some l => l | None => ExactlyZero end) by (rewrite Lo; reflexivity).
    rewrite Hl, Sg. set (lo := match hex_loss n k with Some l => l | None => ExactlyZero end) in *.
    assert (Hpow : 2 ^ (PRECISION S - 1) <= 2 ^ 124) by (apply Z.pow_le_mono_r; lia).
    assert (Hn0 : (0 < IZR n)%R) by (apply IZR_lt; lia).
    assert (Hv' : (0 < IZR n * bpow r2 E')%R) by (apply Rmult_lt_0_compat; [exact Hn0|apply bpow_gt_0]).
    destruct (normalize_spec_i32 S (mkFloat (hex_sig n k) ef Normal false) m lo (IZR n * bpow r2 E') HS eq_refl) as [res [N1 N2]]; cbn [sig exp sign].
    + unfold limb. clear -Bs. lia.
    + exact Hef.
    + lra.
    + replace (ef - (PRECISION S - 1)) with (E' + 4 * k - 128) by (unfold E'; lia). exact Bt.
    + right. right. lia.
    + intro Y. lia.
    + rewrite N1. cbn [bind]. exists res. split; [reflexivity|]. cbn [sign sgnr] in N2. apply crate_correct_pos in N2; [|lra].
      assert (Hbig : forall X, MAX_EXP S + 1 <= 4 * (k - 1) + X -> (bpow r2 (MAX_EXP S + 1) <= IZR n * bpow r2 X)%R).
      { intros X HX. apply Rle_trans with (bpow r2 (4 * (k - 1)) * bpow r2 X)%R; [rewrite <- bpow_plus; apply bpow_le; lia|].
        apply Rmult_le_compat_r; [apply bpow_ge_0|]. rewrite <- IZR_pow2 by lia. apply IZR_le. rewrite <- pow16 by lia. lia. }
      assert (Hsmall : forall X, 4 * k + X <= MIN_EXP S - PRECISION S -> (0 < IZR n * bpow r2 X < bpow r2 (MIN_EXP S - PRECISION S))%R).
      { intros X HX. split; [apply Rmult_lt_0_compat; [exact Hn0|apply bpow_gt_0]|].
        apply Rlt_le_trans with (bpow r2 (4 * k) * bpow r2 X)%R; [|rewrite <- bpow_plus; apply bpow_le; lia].
        apply Rmult_lt_compat_r; [apply bpow_gt_0|]. rewrite <- IZR_pow2 by lia. apply IZR_lt. rewrite <- pow16 by lia. lia. }
      destruct (Z.eq_dec E' (e - 4 * kf)) as [Ee|Ee]; [rewrite <- Ee; exact N2|].
      assert (Hef' : ef = Z.max (- 2 ^ 31) (Z.min (2 ^ 31 - 1) (E0 + adj))) by reflexivity.
      assert (Hes' : es = Z.min (2 ^ 31 - 1) n') by reflexivity.
      assert (HE0 : E0 = if minus then - es else es) by reflexivity.
      assert (HE' : E' = ef - adj - 4 * kf) by reflexivity.
      clearbody ef E' E0 es adj. clear - N2 HS Hbig Hsmall Ee Hef' Hes' HE0 HE' X3 Ha Hk Hkb Hp Hmin Hmax Hlen HL Hlu K1 Hn'.
      destruct (Z_le_gt_dec E' (e - 4 * kf)) as [Y|Y].
      * apply (correct_big S m (IZR n * bpow r2 E')); [exact HS|apply Hbig|apply Hbig|exact N2]; destruct minus; lia.
      * apply (correct_tiny S m (IZR n * bpow r2 E')); [exact HS|apply Hsmall|apply Hsmall|exact N2]; destruct minus; lia.
Qed.

(** ** Everything else is rejected *)
Lemma exp_sign_inv : forall u minus ds n, exp_sign u = (minus, ds) -> digits 10 ds n -> exponent u (if minus then - n else n).
Proof.
  intros u minus ds n E D. unfold exp_sign in E. destruct u as [|c u].
  - injection E as <- <-. constructor. exact D.
  - change (ch "-"%string) with 45 in E. change (ch "+"%string) with 43 in E.
    destruct (Z.eqb_spec c 45) as [->|N1]; [injection E as <- <-; constructor; exact D|].
    destruct (Z.eqb_spec c 43) as [->|N2]; [injection E as <- <-; constructor; exact D|].
    injection E as <- <-. constructor. exact D.
Qed.
Lemma exp_sign_has : forall u minus ds n, exp_sign u = (minus, ds) -> digits 10 ds n -> ds <> [] -> has_digit u.
Proof.
  intros u minus ds n E D N. destruct (exp_sign_spec u _ (exp_sign_inv u minus ds n E D)) as [m2 [ds2 [n2 [E2 [_ [_ [_ H]]]]]]].
  rewrite E in E2. injection E2 as <- <-. apply H. exact N.
Qed.
Lemma hex_err_tail : forall S m L s st st',
  hex_loop L 0 s st = Ret (Ok st') -> h_has_exp st' = false ->
  L = len s -> st = mkHex 0 0 false false LIMB_BITS None None L -> exists e, from_hexadecimal_string S s m = Ret (Err e).
Proof.
  intros S m L s st st' H Hh -> ->. unfold from_hexadecimal_string. rewrite H. cbn [rbind bind]. rewrite Hh. cbn [negb].
  destruct (negb (h_any_digits st')); eexists; reflexivity.
Qed.

Lemma hex_prefix : forall pre rest, Forall (mchar 16) pre -> let L := len (pre ++ rest) in
  let st0 := mkHex 0 0 false false LIMB_BITS None None L in
  (exists e, hex_loop L 0 (pre ++ rest) st0 = Ret (Err e)) \/
  exists st any n d, hex_loop L 0 (pre ++ rest) st0 = hex_loop L (len pre) rest st /\ hinv L (len pre) any n d st /\
    (any = true -> exists k, mantissa 16 pre n k).
Proof.
  intros pre rest F L st0. pose proof (hex_start L) as H0. fold st0 in H0.
  destruct (classify_prefix 16 pre ltac:(lia) F) as [D|[ip [fp [Dip [[Ep Dfp]|[u [Ep Dfp]]]]]]].
  - right. destruct (hex_digits_step pre L 0 false 0 None _ rest H0 D) as [m [st [Hm [E I]]]].
    eexists st, _, _, _. split; [rewrite E; reflexivity|]. split; [exact I|]. intro A. exists 0. rewrite Z.mul_0_l. constructor; [exact Hm|].
    destruct pre; [discriminate|intro X; discriminate].
  - right. subst pre.
    assert (EL : (ip ++ 46 :: fp) ++ rest = ip ++ 46 :: fp ++ rest) by (rewrite <- app_assoc; reflexivity). rewrite EL.
    destruct (hex_digits_step ip L 0 false 0 None _ (46 :: fp ++ rest) H0 Dip) as [m [st [Hm [E I]]]].
    rewrite E. rewrite !Z.add_0_l in I |- *.
    assert (HL : 0 <= len ip < L) by (unfold L, len; rewrite EL, !app_length; cbn [length]; lia).
    destruct (hex_dot_step L (len ip) _ _ st (fp ++ rest) I HL) as [st1 [E1 I1]]. rewrite E1.
    destruct (hex_digits_step fp L (len ip + 1) _ _ _ st1 rest I1 Dfp) as [m2 [st2 [Hm2 [E2 I2]]]]. rewrite E2.
    assert (Lt : len (ip ++ 46 :: fp) = len ip + 1 + len fp) by (unfold len; rewrite app_length; cbn [length]; lia).
    rewrite Lt. eexists st2, _, _, _. split; [reflexivity|]. split; [exact I2|]. intro A. eexists. apply mantissa_point.
    + rewrite Z.mul_0_l. apply digits_app; [exact Hm|exact Hm2|lia].
    + destruct ip, fp; try discriminate.
  - left. subst pre.
    assert (EL : (ip ++ 46 :: fp ++ 46 :: u) ++ rest = ip ++ 46 :: fp ++ 46 :: u ++ rest) by (rewrite <- app_assoc; cbn [app]; rewrite <- app_assoc; reflexivity). rewrite EL.
    destruct (hex_digits_step ip L 0 false 0 None _ (46 :: fp ++ 46 :: u ++ rest) H0 Dip) as [m [st [Hm [E I]]]].
    rewrite E. rewrite !Z.add_0_l in I |- *.
    assert (HL : 0 <= len ip < L) by (unfold L, len; rewrite EL, !app_length; cbn [length]; lia).
    destruct (hex_dot_step L (len ip) _ _ st (fp ++ 46 :: u ++ rest) I HL) as [st1 [E1 I1]]. rewrite E1.
    destruct (hex_digits_step fp L (len ip + 1) _ _ _ st1 (46 :: u ++ rest) I1 Dfp) as [m2 [st2 [Hm2 [E2 I2]]]]. rewrite E2.
    eexists. apply (hex_second_dot L _ _ _ _ st2 (u ++ rest) I2). unfold L, len. rewrite EL, !app_length. cbn [length]. rewrite !app_length. lia.
Qed.

Theorem from_hex_rejects : forall S s m, (exists x, hex_body s x) \/ exists e, from_hexadecimal_string S s m = Ret (Err e).
Proof.
  intros S s m. destruct (split_text 16 s ltac:(lia)) as [pre [rest [-> [F R]]]].
  assert (Herr : forall e, hex_loop (len (pre ++ rest)) 0 (pre ++ rest) (mkHex 0 0 false false LIMB_BITS None None (len (pre ++ rest))) = Ret (Err e) ->
    exists e, from_hexadecimal_string S (pre ++ rest) m = Ret (Err e)).
  { intros e E. unfold from_hexadecimal_string. rewrite E. eexists. reflexivity. }
  destruct (hex_prefix pre rest F) as [[e E]|[st [any [n [d [E [I K]]]]]]]; [right; exact (Herr e E)|].
  destruct R as [->|[c [u [-> [C1 C2]]]]].
  - right. eapply hex_err_tail; [rewrite E; reflexivity|exact (hi_has _ _ _ _ _ _ I)|reflexivity|reflexivity].
  - destruct (is_digit_dec 16 c ltac:(lia)) as [X|[_ X]]; [contradiction|].
    cbn [hex_loop] in E. rewrite (proj2 (Z.eqb_neq c (ch "."%string)) C1), X in E.
    destruct ((c =? ch "p"%string) || (c =? ch "P"%string)) eqn:Hp; [|right; exact (Herr _ E)].
    rewrite (hi_any _ _ _ _ _ _ I) in E. destruct any; cbn [negb] in E; [|right; exact (Herr _ E)].
    destruct (exp_sign u) as [minus ds] eqn:Es.
    assert (Fd : Forall (is_digit 10) ds \/ ~ Forall (is_digit 10) ds).
    { clear. induction ds as [|c ds [H|H]]; [left; constructor| |].
      - destruct (is_digit_dec 10 c ltac:(lia)) as [X|[X _]]; [left; constructor; assumption|right; intro Y; inversion Y; contradiction].
      - right. intro Y. inversion Y. contradiction. }
    destruct Fd as [Fd|Fd]; [|rewrite (exp_digits_err _ _ _ Fd) in E; right; exact (Herr _ E)].
    destruct (digits_exist 10 ds ltac:(lia) Fd) as [ne De]. destruct ds as [|c0 ds].
    + right. cbn [exp_digits] in E. rewrite (hi_has _ _ _ _ _ _ I) in E. exact (Herr _ E).
    + left. destruct (K eq_refl) as [k Km]. eexists. apply hex_intro; [exact Km| |exact (exp_sign_inv _ _ _ _ Es De)|apply (exp_sign_has _ _ _ _ Es De); discriminate].
      change (ch "p"%string) with 112 in Hp. change (ch "P"%string) with 80 in Hp. lia.
Qed.
