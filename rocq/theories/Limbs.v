(** * Limbs.v -- lemmas about limb lists, loops over them and their bits *)
From Coq Require Import ZArith List Bool Lia ZifyBool.
From Verif Require Import Machine Sig SpecSig.
Import ListNotations.
Local Open Scope Z_scope.

Ltac Zify.zify_post_hook ::= Z.div_mod_to_equations.

(** ** Machine integers *)
Lemma LIMB_MOD_eq : LIMB_MOD = 2 ^ 128. Proof. reflexivity. Qed.
Lemma wrap128_id : forall x, limb x -> wrap128 x = x.
Proof. intros x Hx. unfold wrap128. apply Z.mod_small. exact Hx. Qed.
Lemma wrap128_limb : forall x, limb (wrap128 x).
Proof. intro x. unfold wrap128, limb. rewrite LIMB_MOD_eq. apply Z.mod_pos_bound. reflexivity. Qed.

Lemma chk32_ret : forall x, - 2 ^ 31 <= x <= 2 ^ 31 - 1 -> chk32 x = Ret x.
Proof.
  intros x Hx. unfold chk32, I32_MIN, I32_MAX.
  destruct ((- 2 ^ 31 <=? x) && (x <=? 2 ^ 31 - 1)) eqn:E; [reflexivity|lia].
Qed.
Lemma chk128_ret : forall x, limb x -> chk128 x = Ret x.
Proof.
  intros x Hx. unfold limb in Hx. unfold chk128. rewrite LIMB_MOD_eq.
  destruct ((0 <=? x) && (x <? 2 ^ 128)) eqn:E; [reflexivity|lia].
Qed.
Lemma usub_ret : forall a b, b <= a -> usub a b = Ret (a - b).
Proof. intros a b H. unfold usub. destruct (b <=? a) eqn:E; [reflexivity|lia]. Qed.
Lemma as_i32_id : forall x, - 2 ^ 31 <= x <= 2 ^ 31 - 1 -> as_i32 x = x.
Proof. intros x Hx. unfold as_i32. rewrite Z.mod_small; lia. Qed.
Lemma sat32_id : forall x, - 2 ^ 31 <= x <= 2 ^ 31 - 1 -> sat32 x = x.
Proof. intros x Hx. unfold sat32, I32_MIN, I32_MAX. lia. Qed.
Lemma shl128_ret : forall x n, 0 <= n < 128 -> shl128 x n = Ret (wrap128 (Z.shiftl x n)).
Proof. intros x n H. unfold shl128. destruct ((0 <=? n) && (n <? 128)) eqn:E; [reflexivity|lia]. Qed.
Lemma shr128_ret : forall x n, 0 <= n < 128 -> shr128 x n = Ret (Z.shiftr x n).
Proof. intros x n H. unfold shr128. destruct ((0 <=? n) && (n <? 128)) eqn:E; [reflexivity|lia]. Qed.

Lemma testbit_wrap128 : forall x n, 0 <= n ->
  Z.testbit (wrap128 x) n = (n <? 128) && Z.testbit x n.
Proof.
  intros x n Hn. unfold wrap128. rewrite LIMB_MOD_eq.
  destruct (n <? 128) eqn:E.
  - rewrite Z.mod_pow2_bits_low by lia. reflexivity.
  - rewrite Z.mod_pow2_bits_high by lia. reflexivity.
Qed.

Lemma pow2_pos : forall n, 0 < 2 ^ n \/ n < 0.
Proof. intro n. destruct (Z_lt_le_dec n 0); [right; assumption|left; apply Z.pow_pos_nonneg; lia]. Qed.
Lemma pow2_gt0 : forall n, 0 <= n -> 0 < 2 ^ n.
Proof. intros n H. apply Z.pow_pos_nonneg; lia. Qed.

Lemma limb_testbit_high : forall x n, limb x -> 128 <= n -> Z.testbit x n = false.
Proof.
  intros x n [H0 H1] Hn.
  destruct (Z.eq_dec x 0) as [->|Hx]. { apply Z.testbit_0_l. }
  apply Z.bits_above_log2; [lia|].
  assert (Z.log2 x < 128) by (apply Z.log2_lt_pow2; lia). lia.
Qed.

Lemma bits_lt_pow2 : forall x n, 0 <= x -> 0 <= n ->
  (forall i, n <= i -> Z.testbit x i = false) -> x < 2 ^ n.
Proof.
  intros x n Hx Hn H.
  destruct (Z.eq_dec x 0) as [->|Hx0]. { apply pow2_gt0; lia. }
  apply Z.log2_lt_pow2; [lia|].
  destruct (Z_lt_le_dec (Z.log2 x) n) as [Hl|Hl]; [assumption|].
  specialize (H _ Hl). rewrite Z.bit_log2 in H by lia. discriminate.
Qed.

Lemma lt_pow2_bits : forall x n i, 0 <= x < 2 ^ n -> n <= i -> Z.testbit x i = false.
Proof.
  intros x n i [H0 H1] Hi.
  destruct (Z.eq_dec x 0) as [->|Hx]. { apply Z.testbit_0_l. }
  apply Z.bits_above_log2; [lia|].
  assert (Z.log2 x < n) by (apply Z.log2_lt_pow2; lia). lia.
Qed.

(** disjoint or = sum *)
Lemma lor_add : forall a b, Z.land a b = 0 -> Z.lor a b = a + b.
Proof. intros a b H. rewrite (Z.add_nocarry_lxor a b H). rewrite (Z.lxor_lor a b H). reflexivity. Qed.
Lemma lor_shiftl_add : forall a b n, 0 <= n -> 0 <= b < 2 ^ n -> Z.lor (Z.shiftl a n) b = a * 2 ^ n + b.
Proof.
  intros a b n Hn Hb. rewrite lor_add.
  - rewrite Z.shiftl_mul_pow2 by lia. reflexivity.
  - apply Z.bits_inj'. intros i Hi. rewrite Z.land_spec, Z.bits_0, Z.shiftl_spec by lia.
    destruct (Z_lt_le_dec i n) as [H|H].
    + rewrite Z.testbit_neg_r by lia. reflexivity.
    + rewrite (lt_pow2_bits b n i) by lia. apply andb_false_r.
Qed.

(** ** Slices *)
Lemma len_eq : forall A (l : list A), len l = Z.of_nat (length l). Proof. reflexivity. Qed.
Lemma get_ret : forall l i, 0 <= i < len l -> get l i = Ret (nth (Z.to_nat i) l 0).
Proof. intros l i H. unfold get. destruct ((0 <=? i) && (i <? len l)) eqn:E; [reflexivity|lia]. Qed.
Lemma set_ret : forall l i v, 0 <= i < len l -> set l i v = Ret (set_nth l (Z.to_nat i) v).
Proof. intros l i v H. unfold set. destruct ((0 <=? i) && (i <? len l)) eqn:E; [reflexivity|lia]. Qed.
Lemma slice_to_ret : forall l n, 0 <= n <= len l -> slice_to l n = Ret (firstn (Z.to_nat n) l).
Proof. intros l i H. unfold slice_to. destruct ((0 <=? i) && (i <=? len l)) eqn:E; [reflexivity|lia]. Qed.
Lemma slice_from_ret : forall l n, 0 <= n <= len l -> slice_from l n = Ret (skipn (Z.to_nat n) l).
Proof. intros l i H. unfold slice_from. destruct ((0 <=? i) && (i <=? len l)) eqn:E; [reflexivity|lia]. Qed.

Lemma set_nth_length : forall l n v, length (set_nth l n v) = length l.
Proof. induction l as [|x l IH]; intros [|n] v; simpl; try reflexivity. rewrite IH. reflexivity. Qed.
Lemma nth_set_nth : forall l n v j, (n < length l)%nat ->
  nth j (set_nth l n v) 0 = if Nat.eqb j n then v else nth j l 0.
Proof.
  induction l as [|x l IH]; intros [|n] v [|j] H; simpl in *; try lia; try reflexivity.
  apply IH. lia.
Qed.
Lemma set_nth_limbs : forall l n v, limbs l -> limb v -> limbs (set_nth l n v).
Proof.
  induction l as [|x l IH]; intros [|n] v H Hv; simpl; try assumption; inversion H; subst; constructor; auto.
  apply IH; assumption.
Qed.

Lemma limbs_nth : forall l n, limbs l -> limb (nth n l 0).
Proof.
  intros l n H. destruct (Nat.lt_ge_cases n (length l)) as [Hn|Hn].
  - unfold limbs in H. rewrite Forall_forall in H. apply H. apply nth_In. assumption.
  - rewrite nth_overflow by assumption. unfold limb. lia.
Qed.
Lemma limbs_of_nth : forall l, (forall n, (n < length l)%nat -> limb (nth n l 0)) -> limbs l.
Proof.
  intros l H. apply Forall_forall. intros x Hx. apply (In_nth l x 0) in Hx.
  destruct Hx as [n [Hn Hx]]. rewrite <- Hx. apply H. assumption.
Qed.
Lemma limbs_app : forall a b, limbs a -> limbs b -> limbs (a ++ b).
Proof. intros a b Ha Hb. apply Forall_app. split; assumption. Qed.
Lemma limbs_firstn : forall n l, limbs l -> limbs (firstn n l).
Proof. intros n l H. apply Forall_forall. intros x Hx. rewrite <- (firstn_skipn n l) in H.
  apply Forall_app in H. destruct H as [H _]. rewrite Forall_forall in H. auto. Qed.
Lemma limbs_skipn : forall n l, limbs l -> limbs (skipn n l).
Proof. intros n l H. apply Forall_forall. intros x Hx. rewrite <- (firstn_skipn n l) in H.
  apply Forall_app in H. destruct H as [_ H]. rewrite Forall_forall in H. auto. Qed.
Lemma limbs_rev : forall l, limbs l -> limbs (rev l).
Proof. intros l H. apply Forall_rev. assumption. Qed.
Lemma limbs_repeat0 : forall n, limbs (repeat 0 n).
Proof. induction n as [|n IH]; constructor; [unfold limb; lia|assumption]. Qed.

(** ** Values *)
Lemma lval_bound : forall l, limbs l -> 0 <= lval l < 2 ^ nbits l.
Proof.
  induction l as [|x l IH]; intro H.
  - cbn. lia.
  - inversion H as [|? ? Hx Hl]; subst. specialize (IH Hl). unfold limb in Hx.
    unfold nbits, nlimbs in *. cbn [lval length]. rewrite Nat2Z.inj_succ.
    replace (128 * Z.succ (Z.of_nat (length l))) with (128 + 128 * Z.of_nat (length l)) by lia.
    rewrite Z.pow_add_r by lia. nia.
Qed.
Lemma lval_nonneg : forall l, limbs l -> 0 <= lval l.
Proof. intros l H. apply lval_bound. assumption. Qed.

Lemma lval_app : forall a b, lval (a ++ b) = lval a + 2 ^ nbits a * lval b.
Proof.
  induction a as [|x a IH]; intro b.
  - unfold nbits, nlimbs. cbn [app lval length]. change (2 ^ (128 * Z.of_nat 0)) with 1. lia.
  - unfold nbits, nlimbs in *. cbn [app lval length]. rewrite IH. rewrite Nat2Z.inj_succ.
    replace (128 * Z.succ (Z.of_nat (length a))) with (128 + 128 * Z.of_nat (length a)) by lia.
    rewrite Z.pow_add_r by lia. ring.
Qed.

Lemma lval_repeat0 : forall n, lval (repeat 0 n) = 0.
Proof. induction n as [|n IH]; cbn [repeat lval]; [reflexivity|rewrite IH; lia]. Qed.

Lemma lval_single : forall x, lval [x] = x.
Proof. intro x. cbn [lval]. lia. Qed.

(** The bits of the value are the bits of the limbs. *)
Lemma lval_testbit : forall l n, limbs l -> 0 <= n ->
  Z.testbit (lval l) n = Z.testbit (nth (Z.to_nat (n / 128)) l 0) (n mod 128).
Proof.
  induction l as [|x l IH]; intros n H Hn.
  - cbn [lval]. rewrite Z.testbit_0_l. destruct (Z.to_nat (n / 128)); cbn [nth]; rewrite Z.testbit_0_l; reflexivity.
  - inversion H as [|? ? Hx Hl]; subst. cbn [lval].
    replace (x + 2 ^ 128 * lval l) with (Z.lor (Z.shiftl (lval l) 128) x)
      by (rewrite lor_shiftl_add by (unfold limb in Hx; lia); ring).
    rewrite Z.lor_spec.
    destruct (Z_lt_le_dec n 128) as [Hs|Hs].
    + rewrite Z.shiftl_spec_low by lia. cbn [orb].
      rewrite Z.div_small, Z.mod_small by lia. reflexivity.
    + rewrite Z.shiftl_spec_high by lia. rewrite (limb_testbit_high x n Hx Hs). rewrite orb_false_r.
      rewrite IH by (assumption || lia).
      replace (n / 128) with (1 + (n - 128) / 128) by lia.
      replace (n mod 128) with ((n - 128) mod 128) by lia.
      rewrite Z2Nat.inj_add by lia. reflexivity.
Qed.

Lemma lval_testbit_nth : forall l i j, limbs l -> 0 <= j < 128 ->
  Z.testbit (nth i l 0) j = Z.testbit (lval l) (128 * Z.of_nat i + j).
Proof.
  intros l i j H Hj. rewrite lval_testbit by (assumption || lia).
  replace ((128 * Z.of_nat i + j) / 128) with (Z.of_nat i) by lia.
  replace ((128 * Z.of_nat i + j) mod 128) with j by lia.
  rewrite Nat2Z.id. reflexivity.
Qed.

Lemma lval_nth : forall l i, limbs l -> nth i l 0 = (lval l / 2 ^ (128 * Z.of_nat i)) mod 2 ^ 128.
Proof.
  intros l i H. apply Z.bits_inj'. intros j Hj.
  destruct (Z_lt_le_dec j 128) as [Hs|Hs].
  - rewrite lval_testbit_nth by (assumption || lia).
    rewrite Z.mod_pow2_bits_low by lia. rewrite Z.div_pow2_bits by lia. f_equal. lia.
  - rewrite Z.mod_pow2_bits_high by lia. apply limb_testbit_high; [apply limbs_nth; assumption|lia].
Qed.

Lemma lval_inj : forall a b, limbs a -> limbs b -> length a = length b -> lval a = lval b -> a = b.
Proof.
  intros a b Ha Hb Hl Hv. apply (nth_ext a b 0 0 Hl). intros n Hn.
  rewrite !lval_nth by assumption. rewrite Hv. reflexivity.
Qed.

Lemma is_all_zeros_spec : forall l, limbs l -> is_all_zeros l = (lval l =? 0).
Proof.
  induction l as [|x l IH]; intro H; [reflexivity|].
  inversion H as [|? ? Hx Hl]; subst. cbn [is_all_zeros forallb lval].
  fold (is_all_zeros l). rewrite IH by assumption.
  pose proof (lval_nonneg l Hl). unfold limb in Hx. lia.
Qed.

(** ** Loops *)
Lemma zrange_nat : forall n, zrange 0 (Z.of_nat n) = map Z.of_nat (seq 0 n).
Proof.
  intro n. unfold zrange. rewrite Z.sub_0_r, Nat2Z.id. apply map_ext. intro a. lia.
Qed.

Lemma for_each_app : forall A S (l1 l2 : list A) (body : A -> S -> outcome S) s,
  for_each (l1 ++ l2) body s = bind (for_each l1 body s) (fun s => for_each l2 body s).
Proof.
  intros A S l1. induction l1 as [|x l1 IH]; intros l2 body s; [reflexivity|].
  cbn [app for_each]. destruct (body x s) as [s'| |]; cbn [bind]; [apply IH|reflexivity|reflexivity].
Qed.

(** An invariant rule for counting loops. *)
Lemma for_each_up_inv : forall S (P : nat -> S -> Prop) (body : Z -> S -> outcome S) n s,
  P O s ->
  (forall i s, (i < n)%nat -> P i s -> exists s', body (Z.of_nat i) s = Ret s' /\ P (Datatypes.S i) s') ->
  exists s', for_each (zrange 0 (Z.of_nat n)) body s = Ret s' /\ P n s'.
Proof.
  intros S P body n s H0 Hstep. rewrite zrange_nat.
  assert (G : forall m, (m <= n)%nat -> exists s', for_each (map Z.of_nat (seq 0 m)) body s = Ret s' /\ P m s').
  { induction m as [|m IH]; intro Hm.
    - exists s. split; [reflexivity|assumption].
    - destruct IH as [s1 [E1 P1]]; [lia|]. destruct (Hstep m s1) as [s2 [E2 P2]]; [lia|assumption|].
      exists s2. split; [|assumption]. rewrite seq_S, map_app, for_each_app, E1. cbn [bind map for_each Nat.add].
      rewrite E2. reflexivity. }
  apply G. lia.
Qed.

Lemma for_each_down_inv : forall S (P : nat -> S -> Prop) (body : Z -> S -> outcome S) n s,
  P n s ->
  (forall i s, (i < n)%nat -> P (Datatypes.S i) s -> exists s', body (Z.of_nat i) s = Ret s' /\ P i s') ->
  exists s', for_each (rev (zrange 0 (Z.of_nat n))) body s = Ret s' /\ P O s'.
Proof.
  intros S P body n. rewrite zrange_nat.
  induction n as [|n IH]; intros s H0 Hstep.
  - exists s. split; [reflexivity|assumption].
  - rewrite seq_S, map_app, rev_app_distr. cbn [map rev app for_each Nat.add].
    destruct (Hstep n s) as [s1 [E1 P1]]; [lia|assumption|]. rewrite E1. cbn [bind].
    apply IH; [assumption|]. intros i s' Hi. apply Hstep. lia.
Qed.

(** Loops that rewrite every element of a slice in place. *)
Lemma for_each_down_set : forall (f : nat -> Z) (body : Z -> list Z -> outcome (list Z)) l,
  (forall i d, (i < length l)%nat -> length d = length l ->
     (forall j, (j <= i)%nat -> nth j d 0 = nth j l 0) -> body (Z.of_nat i) d = Ret (set_nth d i (f i))) ->
  exists d, for_each (rev (zrange 0 (len l))) body l = Ret d /\ length d = length l /\
    forall i, (i < length l)%nat -> nth i d 0 = f i.
Proof.
  intros f body l H. rewrite len_eq.
  destruct (for_each_down_inv _
    (fun k d => length d = length l /\ forall j, (j < length l)%nat -> nth j d 0 = if (j <? k)%nat then nth j l 0 else f j)
    body (length l) l) as [d [E [Hl Hd]]].
  - split; [reflexivity|]. intros j Hj. destruct (Nat.ltb_spec j (length l)); [reflexivity|lia].
  - intros i d Hi [Hl Hd]. exists (set_nth d i (f i)). split.
    + apply H; [assumption|assumption|]. intros j Hj. rewrite Hd by lia.
      destruct (Nat.ltb_spec j (S i)); [reflexivity|lia].
    + split; [rewrite set_nth_length; assumption|]. intros j Hj. rewrite nth_set_nth by lia.
      destruct (Nat.eqb_spec j i) as [->|Hji].
      * destruct (Nat.ltb_spec i i); [lia|reflexivity].
      * rewrite Hd by assumption. destruct (Nat.ltb_spec j i), (Nat.ltb_spec j (S i)); try lia; reflexivity.
  - exists d. split; [assumption|]. split; [assumption|]. intros i Hi. rewrite Hd by assumption. reflexivity.
Qed.

Lemma for_each_up_set : forall (f : nat -> Z) (body : Z -> list Z -> outcome (list Z)) l n, (n <= length l)%nat ->
  (forall i d, (i < n)%nat -> length d = length l ->
     (forall j, (i <= j)%nat -> nth j d 0 = nth j l 0) -> body (Z.of_nat i) d = Ret (set_nth d i (f i))) ->
  exists d, for_each (zrange 0 (Z.of_nat n)) body l = Ret d /\ length d = length l /\
    forall i, nth i d 0 = if (i <? n)%nat then f i else nth i l 0.
Proof.
  intros f body l n Hn H.
  destruct (for_each_up_inv _
    (fun k d => length d = length l /\ forall j, nth j d 0 = if (j <? k)%nat then f j else nth j l 0)
    body n l) as [d [E [Hl Hd]]].
  - split; [reflexivity|]. intros j. destruct (Nat.ltb_spec j 0); [lia|reflexivity].
  - intros i d Hi [Hl Hd]. exists (set_nth d i (f i)). split.
    + apply H; [assumption|assumption|]. intros j Hj. rewrite Hd.
      destruct (Nat.ltb_spec j i); [lia|reflexivity].
    + split; [rewrite set_nth_length; assumption|]. intros j. rewrite nth_set_nth by lia.
      destruct (Nat.eqb_spec j i) as [->|Hji].
      * destruct (Nat.ltb_spec i (S i)); [reflexivity|lia].
      * rewrite Hd. destruct (Nat.ltb_spec j i), (Nat.ltb_spec j (S i)); try lia; reflexivity.
  - exists d. auto.
Qed.

(** A list given by its bits. *)
Lemma lval_ext_bits : forall l v, limbs l -> 0 <= v ->
  (forall n, 0 <= n -> Z.testbit (lval l) n = Z.testbit v n) -> lval l = v.
Proof. intros l v Hl Hv H. apply Z.bits_inj'. assumption. Qed.
