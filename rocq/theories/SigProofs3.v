(** * SigProofs3.v -- multi-limb multiplication, division, signed addition *)
From Coq Require Import ZArith List Bool Lia ZifyBool.
From Verif Require Import Machine Sig SpecSig Limbs SigProofs SigProofs2.
Import ListNotations.
Local Open Scope Z_scope.

Ltac Zify.zify_post_hook ::= Z.div_mod_to_equations.

(** clearing the first [n] limbs *)
Lemma clear_spec : forall l n, limbs l -> (n <= length l)%nat ->
  exists d, for_each (zrange 0 (Z.of_nat n)) (fun i d => set d i 0) l = Ret d /\ limbs d /\ length d = length l /\
    (forall i, nth i d 0 = if (i <? n)%nat then 0 else nth i l 0).
Proof.
  intros l n Hl Hn.
  destruct (for_each_up_set (fun _ => 0) (fun i d => set d i 0) l n Hn) as [d [E [Hlen Hd]]].
  { intros i d Hi Hld _. rewrite set_ret by (rewrite len_eq; lia). rewrite Nat2Z.id. reflexivity. }
  exists d. split; [assumption|]. split; [|auto].
  apply limbs_of_nth. intros i _. rewrite Hd. destruct (i <? n)%nat; [apply limb_0|apply limbs_nth; assumption].
Qed.

Lemma lval_firstn_S : forall l n, (n < length l)%nat ->
  lval (firstn (S n) l) = lval (firstn n l) + nth n l 0 * 2 ^ (128 * Z.of_nat n).
Proof.
  induction l as [|x l IH]; intros [|n] H; cbn [length] in H; try lia.
  - cbn [firstn lval nth]. change (2 ^ (128 * Z.of_nat 0)) with 1. lia.
  - change (firstn (S (S n)) (x :: l)) with (x :: firstn (S n) l).
    change (firstn (S n) (x :: l)) with (x :: firstn n l).
    cbn [lval nth]. rewrite IH by lia. rewrite Nat2Z.inj_succ.
    replace (128 * Z.succ (Z.of_nat n)) with (128 + 128 * Z.of_nat n) by lia.
    rewrite Z.pow_add_r by lia. ring.
Qed.

Lemma lval_firstn_eq : forall a b n, (forall i, (i < n)%nat -> nth i a 0 = nth i b 0) ->
  (n <= length a)%nat -> (n <= length b)%nat -> lval (firstn n a) = lval (firstn n b).
Proof.
  intros a b n. induction n as [|n IH]; intros H Ha Hb; [reflexivity|].
  rewrite !lval_firstn_S by lia. rewrite IH by (intros; try apply H; lia). rewrite H by lia. reflexivity.
Qed.

Lemma lval_firstn_zero : forall l n, (n <= length l)%nat ->
  (forall i, (i < n)%nat -> nth i l 0 = 0) -> lval (firstn n l) = 0.
Proof.
  intros l n. induction n as [|n IH]; intros Hn H; [reflexivity|].
  rewrite lval_firstn_S by lia. rewrite IH by (intros; try apply H; lia). rewrite H by lia. lia.
Qed.

Lemma lval_firstn_set : forall l n k v, (k < n)%nat -> (n <= length l)%nat ->
  lval (firstn n (set_nth l k v)) = lval (firstn n l) + (v - nth k l 0) * 2 ^ (128 * Z.of_nat k).
Proof.
  intros l n k v Hk Hn.
  assert (firstn n (set_nth l k v) = set_nth (firstn n l) k v) as ->.
  { revert n k Hk Hn. induction l as [|x l IH]; intros [|n] [|k] Hk Hn; cbn [length] in Hn; try lia; try reflexivity.
    cbn [set_nth firstn]. rewrite IH by lia. reflexivity. }
  rewrite lval_set_nth by (rewrite firstn_length_le; lia).
  f_equal. f_equal. f_equal.
  rewrite <- (firstn_skipn n l) at 2. rewrite app_nth1; [reflexivity|rewrite firstn_length_le; lia].
Qed.

(** one row of the schoolbook product *)
Definition mul_inner (a b : list Z) (i : Z) (dst : list Z) : outcome (list Z * Z) :=
  for_each (zrange 0 (len b)) (fun j '(dst, carry) =>
          let! ai := get a i in
          let! bj := get b j in
          let! '(low, high) := widening_mul ai bj in
          let '(low, overflow) := overflowing_add128 low carry in
          let! high := chk128 (high + b2z overflow) in
          let! d := get dst (i + j) in
          let '(low, overflow) := overflowing_add128 low d in
          let! high := chk128 (high + b2z overflow) in
          let! dst := set dst (i + j) low in
          Ret (dst, high)) (dst, 0).

Lemma mul_inner_spec : forall a b i dst, limbs a -> limbs b -> limbs dst ->
  (i < length a)%nat -> (i + length b <= length dst)%nat ->
  exists d c, mul_inner a b (Z.of_nat i) dst = Ret (d, c) /\ limbs d /\ length d = length dst /\ limb c /\
    (forall k, (i + length b <= k)%nat -> nth k d 0 = nth k dst 0) /\
    lval (firstn (i + length b) d) + c * 2 ^ (128 * Z.of_nat (i + length b)) =
    lval (firstn (i + length b) dst) + nth i a 0 * lval b * 2 ^ (128 * Z.of_nat i).
Proof.
  intros a b i dst Ha Hb Hd Hi Hfit. unfold mul_inner.
  match goal with |- context [for_each _ ?f _] => set (body := f) end.
  set (n := (i + length b)%nat). set (ai := nth i a 0).
  assert (limb ai) as Hai by (apply limbs_nth; assumption).
  destruct (for_each_up_inv _
    (fun j '(d, c) => limbs d /\ length d = length dst /\ limb c /\
       (forall k, (i + j <= k)%nat -> nth k d 0 = nth k dst 0) /\
       lval (firstn n d) + c * 2 ^ (128 * Z.of_nat (i + j)) =
       lval (firstn n dst) + ai * lval (firstn j b) * 2 ^ (128 * Z.of_nat i))
    body (length b) (dst, 0)) as [[d c] [E [H1 [H2 [H3 [H4 H5]]]]]].
  - repeat split; try assumption; try lia. cbn [firstn lval]. lia.
  - intros j [d c] Hj [Hdl [Hlen [Hc [Hhi Hv]]]].
    unfold body. rewrite get_ret by (rewrite len_eq; lia). cbn [bind]. rewrite Nat2Z.id. fold ai.
    rewrite get_ret by (rewrite len_eq; lia). cbn [bind]. rewrite Nat2Z.id.
    set (bj := nth j b 0). assert (limb bj) as Hbj by (apply limbs_nth; assumption).
    destruct (widening_mul_spec ai bj Hai Hbj) as [lo [hi [Ew [Hlo [Hhi' Hp]]]]].
    rewrite Ew. cbn [bind]. unfold overflowing_add128. cbv beta iota zeta.
    rewrite LIMB_MOD_eq. unfold wrap128. rewrite LIMB_MOD_eq.
    rewrite (get_ret d) by (rewrite len_eq; lia). cbn [bind].
    replace (Z.to_nat (Z.of_nat i + Z.of_nat j)) with (i + j)%nat by lia.
    set (dij := nth (i + j) d 0). assert (limb dij) as Hdij by (apply limbs_nth; assumption).
    set (r1 := (lo + c) mod 2 ^ 128). set (o1 := b2z (2 ^ 128 <=? lo + c)).
    set (r2 := (r1 + dij) mod 2 ^ 128). set (o2 := b2z (2 ^ 128 <=? r1 + dij)).
    unfold limb in *.
    assert (r1 + 2 ^ 128 * o1 = lo + c /\ 0 <= r1 < 2 ^ 128 /\ 0 <= o1 <= 1) as [Q1 [Q2 Q3]].
    { unfold r1, o1, b2z. clear - Hlo Hc. destruct (2 ^ 128 <=? lo + c) eqn:E; lia. }
    clearbody r1 o1.
    assert (r2 + 2 ^ 128 * o2 = r1 + dij /\ 0 <= r2 < 2 ^ 128 /\ 0 <= o2 <= 1) as [Q4 [Q5 Q6]].
    { unfold r2, o2, b2z. clear - Q2 Hdij. destruct (2 ^ 128 <=? r1 + dij) eqn:E; lia. }
    clearbody r2 o2.
    assert (0 <= hi + o1 < 2 ^ 128 /\ 0 <= hi + o1 + o2 < 2 ^ 128) as [Q7 Q8].
    { assert (lo + 2 ^ 128 * hi <= (2 ^ 128 - 1) * (2 ^ 128 - 1)) by (rewrite Hp; clear - Hai Hbj; nia).
      clear Hv Ew Hhi Hp. nia. }
    rewrite chk128_ret by exact Q7. cbn [bind].
    rewrite chk128_ret by exact Q8. cbn [bind].
    rewrite set_ret by (rewrite len_eq; lia). cbn [bind].
    replace (Z.to_nat (Z.of_nat i + Z.of_nat j)) with (i + j)%nat by lia.
    eexists. split; [reflexivity|].
    split; [apply set_nth_limbs; [assumption|exact Q5]|].
    split; [rewrite set_nth_length; assumption|].
    split; [exact Q8|].
    split. { intros k Hk. rewrite nth_set_nth by lia. destruct (Nat.eqb_spec k (i + j)); [lia|]. apply Hhi. lia. }
    rewrite lval_firstn_set by lia. fold dij.
    rewrite lval_firstn_S by lia. fold bj.
    replace (i + S j)%nat with (S (i + j)) by lia. rewrite Nat2Z.inj_succ.
    replace (128 * Z.succ (Z.of_nat (i + j))) with (128 + 128 * Z.of_nat (i + j)) by lia.
    rewrite Z.pow_add_r by lia.
    assert (2 ^ (128 * Z.of_nat (i + j)) = 2 ^ (128 * Z.of_nat i) * 2 ^ (128 * Z.of_nat j)) as Hpp.
    { rewrite Nat2Z.inj_add, Z.mul_add_distr_l, Z.pow_add_r by lia. ring. }
    transitivity (lval (firstn n dst) + ai * lval (firstn j b) * 2 ^ (128 * Z.of_nat i)
                  + ai * bj * 2 ^ (128 * Z.of_nat (i + j))); [|rewrite Hpp; ring].
    rewrite <- Hv, <- Hp.
    replace c with (r1 + 2 ^ 128 * o1 - lo) by lia.
    replace r2 with (r1 + dij - 2 ^ 128 * o2) by lia. ring.
  - rewrite len_eq. rewrite E. exists d, c.
    rewrite firstn_all in H5. repeat split; try assumption; try apply H3.
Qed.

Lemma lval_len_zero : forall l, length l = 0%nat -> lval l = 0.
Proof. intros [|x l] H; [reflexivity|discriminate]. Qed.

Theorem mul_spec : forall dst e a b precision, limbs dst -> limbs a -> limbs b ->
  length dst = (length a + length b)%nat -> 0 <= precision <= 2 ^ 31 - 2 -> nbits dst <= 2 ^ 31 - 1 ->
  let v := lval a * lval b in
  let sh := Z.max 0 (bitlen v - precision) in
  - 2 ^ 31 <= e + 2 <= 2 ^ 31 - 1 -> - 2 ^ 31 <= e + 1 - precision -> e + 1 - precision + sh <= 2 ^ 31 - 1 ->
  exists d, mul dst e a b precision = Ret (d, e + 1 - precision + sh, loss_of (v mod 2 ^ sh) (2 ^ sh)) /\
    limbs d /\ length d = length dst /\ lval d = v / 2 ^ sh.
Proof.
  intros dst e a b precision Hd Ha Hb Hlen Hprec Hnb v sh He1 He2 He3. unfold mul.
  (* the order of the factors *)
  assert (exists a' b', (if len b <? len a then (b, a) else (a, b)) = (a', b') /\ limbs a' /\ limbs b' /\
            length dst = (length a' + length b')%nat /\ v = lval a' * lval b') as [a' [b' [Eab [Ha' [Hb' [Hlen' Hv']]]]]].
  { destruct (len b <? len a); [exists b, a|exists a, b]; repeat split; try assumption; unfold v; lia. }
  rewrite Eab. clear Eab Ha Hb Hlen. rename a' into A, b' into B.
  rewrite slice_to_ret by (rewrite !len_eq; lia). cbn [bind].
  rewrite (len_eq _ B).
  destruct (clear_spec dst (length B) Hd ltac:(lia)) as [d0 [E0 [Hd0 [Hl0 Hn0]]]].
  rewrite E0. cbn [bind]. rewrite (len_eq _ A).
  match goal with |- context [for_each (zrange 0 (Z.of_nat (length A))) ?f _] => set (body := f) end.
  destruct (for_each_up_inv _
    (fun i d => limbs d /\ length d = length dst /\
       lval (firstn (i + length B) d) = lval (firstn i A) * lval B)
    body (length A) d0) as [d1 [E1 [Hd1 [Hl1 Hv1]]]].
  - repeat split; [assumption|assumption|]. cbn [firstn lval]. rewrite Z.mul_0_l. cbn [Nat.add].
    apply lval_firstn_zero; [lia|]. intros k Hk. rewrite Hn0. destruct (Nat.ltb_spec k (length B)); [reflexivity|lia].
  - intros i d Hi [Hdl [Hlen Hv]].
    unfold body. change (for_each (zrange 0 (Z.of_nat (length B))) _ (d, 0)) with (mul_inner A B (Z.of_nat i) d).
    destruct (mul_inner_spec A B i d Ha' Hb' Hdl Hi ltac:(lia)) as [d' [c [Em [H1 [H2 [H3 [H4 H5]]]]]]].
    rewrite Em. cbn [bind]. rewrite set_ret by (rewrite len_eq; lia).
    replace (Z.to_nat (Z.of_nat i + Z.of_nat (length B))) with (i + length B)%nat by lia.
    eexists. split; [reflexivity|]. split; [apply set_nth_limbs; assumption|].
    split; [rewrite set_nth_length; lia|].
    cbn [Nat.add]. rewrite lval_firstn_S by (rewrite set_nth_length; lia).
    rewrite nth_set_nth by lia. rewrite Nat.eqb_refl.
    assert (lval (firstn (i + length B) (set_nth d' (i + length B) c)) = lval (firstn (i + length B) d')) as ->.
    { apply lval_firstn_eq; [|rewrite set_nth_length; lia|lia]. intros k Hk. rewrite nth_set_nth by lia.
      destruct (Nat.eqb_spec k (i + length B)); [lia|reflexivity]. }
    rewrite H5, Hv. rewrite lval_firstn_S by lia. ring.
  - rewrite E1. cbn [bind]. rewrite firstn_all in Hv1.
    replace (firstn (length A + length B) d1) with d1 in Hv1
      by (symmetry; apply firstn_all2; lia). rewrite <- Hv' in Hv1.
    rewrite (chk32_ret (e + 2)) by lia. cbn [bind]. rewrite as_i32_id by lia. rewrite (chk32_ret (precision + 1)) by lia.
    cbn [bind]. rewrite (chk32_ret (e + 2 - (precision + 1))) by lia. cbn [bind].
    rewrite omsb_spec by assumption. rewrite Hv1.
    pose proof (lval_bound d1 Hd1) as Hbd. rewrite Hv1 in Hbd.
    assert (nbits d1 = nbits dst) as Hnn by (unfold nbits, nlimbs; rewrite Hl1; reflexivity). rewrite Hnn in Hbd.
    assert (bitlen v <= nbits dst) as Hbl.
    { apply bitlen_le; [lia|unfold nbits, nlimbs; lia|lia]. }
    destruct (bitlen v <=? precision) eqn:Ele.
    + assert (sh = 0) as -> by lia. exists d1. change (2 ^ 0) with 1. rewrite Z.mod_1_r, Z.div_1_r.
      split; [cbn; f_equal; f_equal; f_equal; lia|]. auto.
    + assert (sh = bitlen v - precision) as Hsh by lia.
      destruct (shift_right_spec d1 (e + 2 - (precision + 1)) (bitlen v - precision) Hd1) as [d2 [E2 [Hd2 [Hl2 Hv2]]]]; [lia|lia|].
      rewrite E2. rewrite Hv1 in *. rewrite <- Hsh. exists d2.
      split; [f_equal; f_equal; f_equal; lia|]. rewrite <- Hsh in Hv2. split; [assumption|]. split; [lia|assumption].
Qed.
