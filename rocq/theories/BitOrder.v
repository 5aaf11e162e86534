(** * BitOrder.v -- the encodings as signed integers: order and neighbours *)
From Coq Require Import ZArith Reals List Bool Lia Lra.
From Flocq Require Import Core.
From Verif Require Import Machine Sig SpecSig Limbs Ieee Spec Norm Arith Order Bits Next Laws Formats Samples.
Import ListNotations.
Local Open Scope Z_scope.
Ltac Zify.zify_post_hook ::= idtac.

(** ** What is claimed *)

(** an encoding of [bits] bits read as sign and magnitude *)
Definition rank (bits b : Z) : Z := if 2 ^ (bits - 1) <=? b then - (b - 2 ^ (bits - 1)) else b.

(** ** Comparing through a key that grows with the magnitude *)
Section Keys.
Variable S : Semantics.
Variable key : Float -> Z.
Hypothesis Kzero : forall x, category x = Zero -> key x = 0.
Hypothesis Kpos : forall x, wf S x -> category x = Normal -> 0 < key x.
Hypothesis Klt : forall x y, wf S x -> wf S y -> category x = Normal -> category y = Normal -> (mag S x < mag S y)%R -> key x < key y.
Hypothesis Keq : forall x y, wf S x -> wf S y -> category x = Normal -> category y = Normal -> mag S x = mag S y -> key x = key y.
Hypothesis Kinf : forall x y, wf S x -> category x = Infinity -> wf S y -> category y = Normal -> key y < key x.
Hypothesis Kinfeq : forall x y, category x = Infinity -> category y = Infinity -> 0 < key x /\ key x = key y.

Lemma key_order : forall x y a b, wf S x -> wf S y -> ext_of S x = Some a -> ext_of S y = Some b ->
  ext_compare a b (signed (sign x) (key x) ?= signed (sign y) (key y)).
Proof.
  intros x y a b Wx Wy A B.
  assert (L : forall u v k l, (u < v)%R -> k < l -> ext_compare (Fin u) (Fin v) (k ?= l)).
  { intros u v k l H1 H2. apply Z.compare_lt_iff in H2. rewrite H2. exact H1. }
  assert (G : forall u v k l, (v < u)%R -> l < k -> ext_compare (Fin u) (Fin v) (k ?= l)).
  { intros u v k l H1 H2. apply Z.lt_gt in H2. unfold Z.gt in H2. rewrite H2. exact H1. }
  assert (E : forall u v k l, u = v -> k = l -> ext_compare (Fin u) (Fin v) (k ?= l)).
  { intros u v k l -> ->. rewrite Z.compare_refl. reflexivity. }
  assert (L' : forall u v k l, ext_lt u v -> k < l -> ext_compare u v (k ?= l)).
  { intros u v k l H1 H2. apply Z.compare_lt_iff in H2. rewrite H2. exact H1. }
  assert (G' : forall u v k l, ext_lt v u -> l < k -> ext_compare u v (k ?= l)).
  { intros u v k l H1 H2. apply Z.lt_gt in H2. unfold Z.gt in H2. rewrite H2. exact H1. }
  assert (E' : forall u k l, k = l -> ext_compare u u (k ?= l)).
  { intros u k l ->. rewrite Z.compare_refl. reflexivity. }
  unfold ext_of in A, B.
  destruct (category x) eqn:Cx; try discriminate A; destruct (category y) eqn:Cy; try discriminate B;
    apply (f_equal (fun o => match o with Some z => z | None => a end)) in A;
    apply (f_equal (fun o => match o with Some z => z | None => b end)) in B; cbv beta iota in A, B; subst a b.
  - destruct (Kinfeq x y Cx Cy) as [P Q]. destruct (sign x), (sign y); cbn [signed].
    + apply E'; lia.
    + apply L'; [exact I|lia].
    + apply G'; [exact I|lia].
    + apply E'; lia.
  - pose proof (Kinf x y Wx Cx Wy Cy) as P. pose proof (Kpos y Wy Cy) as Q.
    destruct (sign x), (sign y); cbn [signed]; first [apply L'; [exact I|lia] | apply G'; [exact I|lia]].
  - pose proof (proj1 (Kinfeq x x Cx Cx)) as P. rewrite (Kzero y Cy).
    destruct (sign x), (sign y); cbn [signed]; first [apply L'; [exact I|lia] | apply G'; [exact I|lia]].
  - pose proof (Kinf y x Wy Cy Wx Cx) as P. pose proof (Kpos x Wx Cx) as Q.
    destruct (sign x), (sign y); cbn [signed]; first [apply L'; [exact I|lia] | apply G'; [exact I|lia]].
  - pose proof (Kpos x Wx Cx) as Px. pose proof (Kpos y Wy Cy) as Py.
    pose proof (mag_pos S x Wx Cx) as Mx. pose proof (mag_pos S y Wy Cy) as My.
    rewrite !value_mag by assumption. unfold sgnr, signed.
    destruct (Rtotal_order (mag S x) (mag S y)) as [H|[H|H]].
    + pose proof (Klt x y Wx Wy Cx Cy H). destruct (sign x), (sign y); first [apply L; [lra|lia] | apply G; [lra|lia]].
    + pose proof (Keq x y Wx Wy Cx Cy H). destruct (sign x), (sign y); first [apply E; [lra|lia] | apply L; [lra|lia] | apply G; [lra|lia]].
    + pose proof (Klt y x Wy Wx Cy Cx H). destruct (sign x), (sign y); first [apply L; [lra|lia] | apply G; [lra|lia]].
  - pose proof (Kpos x Wx Cx) as Px. pose proof (mag_pos S x Wx Cx) as Mx. rewrite (Kzero y Cy).
    rewrite (value_mag S x) by assumption. rewrite value_zero by assumption. unfold sgnr, signed.
    destruct (sign x), (sign y); first [apply L; [lra|lia] | apply G; [lra|lia]].
  - pose proof (proj1 (Kinfeq y y Cy Cy)) as P. rewrite (Kzero x Cx).
    destruct (sign x), (sign y); cbn [signed]; first [apply L'; [exact I|lia] | apply G'; [exact I|lia]].
  - pose proof (Kpos y Wy Cy) as Py. pose proof (mag_pos S y Wy Cy) as My. rewrite (Kzero x Cx).
    rewrite (value_mag S y) by assumption. rewrite value_zero by assumption. unfold sgnr, signed.
    destruct (sign x), (sign y); first [apply L; [lra|lia] | apply G; [lra|lia]].
  - rewrite (Kzero x Cx), (Kzero y Cy). rewrite !value_zero by assumption.
    destruct (sign x), (sign y); apply E; reflexivity.
Qed.

Lemma key_cmp : forall x y, sem_ok S -> wf S x -> wf S y -> category x <> NaN -> category y <> NaN ->
  partial_cmp x y = Ret (Some (signed (sign x) (key x) ?= signed (sign y) (key y))).
Proof.
  intros x y HS Wx Wy Nx Ny.
  destruct (partial_cmp_spec S x y HS Wx Wy) as [r [R H]]. rewrite R.
  destruct (ext_of S x) as [a|] eqn:A; [|exfalso; unfold ext_of in A; destruct (category x); congruence].
  destruct (ext_of S y) as [b|] eqn:B; [|exfalso; unfold ext_of in B; destruct (category y); congruence].
  destruct r as [c|]; [|destruct H].
  rewrite (ext_compare_unique a b c _ H (key_order x y a b Wx Wy A B)). reflexivity.
Qed.
End Keys.

(** canonical pairs compare like (exponent, significand) *)
Lemma mag_split : forall S x y, sem_ok S -> wf S x -> wf S y -> category x = Normal -> category y = Normal ->
  ((mag S x < mag S y)%R -> exp x < exp y \/ (exp x = exp y /\ sig x < sig y)) /\
  (mag S x = mag S y -> exp x = exp y /\ sig x = sig y).
Proof.
  intros S x y HS [_ [_ Wx]] [_ [_ Wy]] Cx Cy. rewrite Cx in Wx. rewrite Cy in Wy. unfold mag.
  destruct (Z.lt_trichotomy (exp x) (exp y)) as [H|[H|H]].
  - pose proof (canonical_exp_lt S _ _ _ _ HS Wx Wy H). split; [auto|]. intro K. lra.
  - rewrite H. pose proof (bpow_gt_0 r2 (exp y - (PRECISION S - 1))) as P. split.
    + intro K. right. split; [reflexivity|]. apply lt_IZR. apply Rmult_lt_reg_r in K; assumption.
    + intro K. split; [reflexivity|]. apply eq_IZR. apply Rmult_eq_reg_r in K; [assumption|lra].
  - pose proof (canonical_exp_lt S _ _ _ _ HS Wy Wx H). split; intro K; lra.
Qed.

(** ** The interchange formats *)
Section Ieee.
Variables (bits eb : Z) (nf : NonfiniteBehavior).
Let S := ieee_semantics bits eb nf.
Hypothesis HS : sem_ok S.
Hypothesis Hbits : bits <= 128.
Let t := bits - 1 - eb.

Definition ikey (x : Float) : Z := encode_exp bits eb nf x * 2 ^ t + encode_frac bits eb x.

Lemma ikey_normal : forall x, wf S x -> category x = Normal -> ikey x = (exp x - MIN_EXP S) * 2 ^ t + sig x /\
  0 < sig x < 2 * 2 ^ t /\ MIN_EXP S <= exp x /\ (exp x = MIN_EXP S \/ 2 ^ t <= sig x).
Proof.
  intros x [_ [_ W]] C. rewrite C in W. destruct (geometry bits eb nf HS) as [G1 [G2 [G3 [G4 [G5 [G6 [G7 G8]]]]]]].
  fold S in G3, G4, G5, G6. fold t in G2, G3. destruct W as [W1 [W2 [W3 W4]]]. rewrite G3 in W1, W3, W4. replace (t + 1 - 1) with t in W3 by lia.
  rewrite Z.pow_add_r in W1 by lia. change (2 ^ 1) with 2 in W1.
  unfold ikey, encode_exp, encode_frac. rewrite C. fold S. fold t.
  destruct (Z.ltb_spec (sig x) (2 ^ t)) as [L|L].
  - destruct W3 as [W3|W3]; [|lia]. rewrite W3. lia.
  - repeat split; try lia.
Qed.

Definition itop : Z := match nf with IEEE754 => (2 ^ eb - 1) * 2 ^ t | NanOnly => 2 ^ (bits - 1) - 2 end.
Lemma itop_split : 2 ^ (bits - 1) = 2 ^ eb * 2 ^ t.
Proof.
  destruct (geometry bits eb nf HS) as [G1 [G2 _]]. fold t in G2. rewrite <- Z.pow_add_r by lia. f_equal. unfold t. lia.
Qed.

Lemma ikey_nan : forall x, wf S x -> (category x = NaN <-> itop < ikey x).
Proof.
  intros x W. pose proof itop_split as T. destruct (geometry bits eb nf HS) as [G1 [G2 [G3 [G4 [G5 [G6 [G7 G8]]]]]]].
  fold S in G3, G4, G5, G6. fold t in G2, G3. pose proof (pow2_gt0 t ltac:(lia)) as Ht.
  destruct (category x) eqn:C.
  - split; [discriminate|]. intro H. destruct W as [_ [_ W]]. rewrite C in W. change (NONFINITE_BEHAVIOR S) with nf in W.
    unfold ikey, encode_exp, encode_frac, itop in H. rewrite C, W in H. lia.
  - split; [|reflexivity]. intros _. destruct W as [_ [_ W]]. rewrite C in W. unfold nan_sig in W. change (X87 S) with false in W.
    change (NONFINITE_BEHAVIOR S) with nf in W. rewrite G3 in W. replace (t + 1 - 1) with t in W by lia.
    unfold ikey, encode_exp, encode_frac, itop. rewrite C. fold t. destruct nf; lia.
  - split; [discriminate|]. intro H. exfalso. destruct (ikey_normal x W C) as [K [K1 [K2 K3]]]. rewrite K in H.
    destruct W as [_ [_ W]]. rewrite C in W. destruct W as [W1 [W2 [W3 W4]]]. change (NONFINITE_BEHAVIOR S) with nf in W4.
    rewrite G3 in W1, W4. rewrite Z.pow_add_r in W1, W4 by lia. change (2 ^ 1) with 2 in W1, W4.
    unfold itop in H. rewrite G5, G6 in *. destruct nf.
    + assert (exp x - (2 - 2 ^ (eb - 1)) <= 2 ^ eb - 3) as L by lia. nia.
    + rewrite T in H. destruct (Z.eq_dec (exp x) (2 ^ (eb - 1) - 1 + 1)) as [E|E].
      * specialize (W4 eq_refl E). rewrite E in H. replace (2 ^ (eb - 1) - 1 + 1 - (2 - 2 ^ (eb - 1))) with (2 ^ eb - 2) in H by lia. nia.
      * assert (exp x - (2 - 2 ^ (eb - 1)) <= 2 ^ eb - 3) as L by lia. nia.
  - split; [discriminate|]. intro H. unfold ikey, encode_exp, encode_frac, itop in H. rewrite C, T in H. destruct nf; nia.
Qed.

Lemma ikey_range : forall x, wf S x -> 0 <= ikey x < 2 ^ (bits - 1).
Proof.
  intros x W. rewrite itop_split. destruct (encode_ranges bits eb nf HS x W) as [A B]. fold t in B. unfold ikey. fold t. nia.
Qed.

Lemma rank_ikey : forall x b, wf S x -> to_bits S x = Ret b -> rank bits b = signed (sign x) (ikey x) /\ 0 <= b < 2 ^ bits.
Proof.
  intros x b W B. pose proof (to_bits_fields bits eb nf HS Hbits x W) as F. fold S in F. rewrite B in F. apply (f_equal (fun o => match o with Ret z => z | _ => b end)) in F. cbv beta iota in F.
  pose proof (ikey_range x W) as R. unfold ikey in *. fold t in F, R |- *.
  destruct (geometry bits eb nf HS) as [G1 [G2 _]]. fold t in G2.
  assert (2 ^ bits = 2 * 2 ^ (bits - 1)) as D by (rewrite <- Z.pow_succ_r by (unfold t in G2; lia); f_equal; lia).
  assert (P := pow2_gt0 (bits - 1) ltac:(unfold t in G2; lia)).
  set (k := encode_exp bits eb nf x * 2 ^ t + encode_frac bits eb x) in *.
  assert (b = b2z (sign x) * 2 ^ (bits - 1) + k) as -> by (unfold k; lia).
  clearbody k. unfold rank, signed. destruct (sign x); cbn [b2z].
  - destruct (Z.leb_spec (2 ^ (bits - 1)) (1 * 2 ^ (bits - 1) + k)); lia.
  - destruct (Z.leb_spec (2 ^ (bits - 1)) (0 * 2 ^ (bits - 1) + k)); lia.
Qed.

Lemma ikey_order : forall x y a b, wf S x -> wf S y -> ext_of S x = Some a -> ext_of S y = Some b ->
  ext_compare a b (signed (sign x) (ikey x) ?= signed (sign y) (ikey y)).
Proof.
  destruct (geometry bits eb nf HS) as [G1 [G2 _]]. fold t in G2. pose proof (pow2_gt0 t ltac:(lia)) as Ht.
  apply key_order.
  - intros x C. unfold ikey, encode_exp, encode_frac. rewrite C. reflexivity.
  - intros x W C. destruct (ikey_normal x W C) as [-> [K1 [K2 K3]]]. nia.
  - intros x y Wx Wy Cx Cy H. destruct (ikey_normal x Wx Cx) as [-> [K1 [K2 K3]]]. destruct (ikey_normal y Wy Cy) as [-> [J1 [J2 J3]]].
    destruct (proj1 (mag_split S x y HS Wx Wy Cx Cy) H) as [L|[L1 L2]]; nia.
  - intros x y Wx Wy Cx Cy H. destruct (ikey_normal x Wx Cx) as [-> _]. destruct (ikey_normal y Wy Cy) as [-> _].
    destruct (proj2 (mag_split S x y HS Wx Wy Cx Cy) H) as [-> ->]. reflexivity.
  - intros x y Wx Cx Wy Cy. pose proof (ikey_nan y Wy) as N.
    assert (ikey y <= itop) as L by (destruct (Z.le_gt_cases (ikey y) itop); [assumption|]; assert (category y = NaN) by (apply N; lia); congruence).
    assert (nf = IEEE754) as E by (destruct Wx as [_ [_ Wx]]; rewrite Cx in Wx; exact Wx).
    assert (ikey x = itop) as X by (unfold ikey, encode_exp, encode_frac, itop; rewrite Cx, E; lia).
    enough (ikey y <> itop) by lia. intro Q. destruct (ikey_normal y Wy Cy) as [K [K1 [K2 K3]]].
    destruct (geometry bits eb nf HS) as [_ [_ [G3 [G4 [G5 [G6 [G7 G8]]]]]]]. fold S in G3, G4, G5, G6.
    destruct Wy as [_ [_ Wy]]. rewrite Cy in Wy. destruct Wy as [_ [W2 _]]. rewrite G5, G6 in *. rewrite E in *.
    unfold itop in Q. rewrite K in Q. rewrite E in Q. assert (exp y - (2 - 2 ^ (eb - 1)) <= 2 ^ eb - 3) by lia. nia.
  - intros x y Cx Cy. unfold ikey, encode_exp, encode_frac. rewrite Cx, Cy. split; [|reflexivity].
    assert (1 < 2 ^ eb) by (apply Z.pow_gt_1; lia). nia.
Qed.

Theorem encoding_order : forall x y b c, wf S x -> wf S y -> category x <> NaN -> category y <> NaN ->
  to_bits S x = Ret b -> to_bits S y = Ret c -> partial_cmp x y = Ret (Some (rank bits b ?= rank bits c)).
Proof.
  intros x y b c Wx Wy Nx Ny B C. rewrite (proj1 (rank_ikey x b Wx B)), (proj1 (rank_ikey y c Wy C)).
  destruct (partial_cmp_spec S x y HS Wx Wy) as [r [R H]]. rewrite R.
  destruct (ext_of S x) as [u|] eqn:U; [|exfalso; unfold ext_of in U; destruct (category x); congruence].
  destruct (ext_of S y) as [v|] eqn:V; [|exfalso; unfold ext_of in V; destruct (category y); congruence].
  destruct r as [d|]; [|destruct H].
  rewrite (ext_compare_unique u v d _ H (ikey_order x y u v Wx Wy U V)). reflexivity.
Qed.

Lemma to_bits_total : forall x, wf S x -> exists b, to_bits S x = Ret b.
Proof. intros x W. eexists. apply (to_bits_fields bits eb nf HS Hbits x W). Qed.

(** every rank up to the top one belongs to a value that is no NaN *)
Lemma rank_onto : forall k, - itop <= k <= itop -> exists z, wf S z /\ category z <> NaN /\ signed (sign z) (ikey z) = k.
Proof.
  intros k Hk. destruct (geometry bits eb nf HS) as [G1 [G2 [G3 [G4 [G5 [G6 [G7 G8]]]]]]]. fold t in G2.
  pose proof itop_split as T. pose proof (pow2_gt0 t ltac:(lia)) as Ht.
  assert (2 ^ bits = 2 * 2 ^ (bits - 1)) as D by (rewrite <- Z.pow_succ_r by (unfold t in G2; lia); f_equal; lia).
  assert (0 <= itop < 2 ^ (bits - 1)) as I by (unfold itop; destruct nf; nia).
  set (b := if k <? 0 then - k + 2 ^ (bits - 1) else k).
  assert (0 <= b < 2 ^ bits) as Hb by (unfold b; destruct (Z.ltb_spec k 0); lia).
  destruct (bits_roundtrip bits eb nf HS Hbits b Hb) as [z [_ [W B]]]. exists z. split; [exact W|].
  destruct (rank_ikey z b W B) as [R _].
  assert (rank bits b = k) as K.
  { unfold rank, b. destruct (Z.ltb_spec k 0).
    - destruct (Z.leb_spec (2 ^ (bits - 1)) (- k + 2 ^ (bits - 1))); lia.
    - destruct (Z.leb_spec (2 ^ (bits - 1)) k); lia. }
  rewrite R in K. split; [|exact K]. intro N. apply (ikey_nan z W) in N.
  unfold signed in K. destruct (sign z); lia.
Qed.

Lemma not_nan_top : forall x, wf S x -> category x <> NaN -> 0 <= ikey x <= itop.
Proof.
  intros x W N. pose proof (ikey_range x W). split; [lia|].
  destruct (Z.le_gt_cases (ikey x) itop); [assumption|]. exfalso. apply N. apply (ikey_nan x W). lia.
Qed.

Lemma not_nan_ext : forall x, category x <> NaN -> exists a, ext_of S x = Some a.
Proof. intros x N. unfold ext_of. destruct (category x); try congruence; eexists; reflexivity. Qed.

(** a value strictly between two others is finite *)
Lemma between_finite : forall a b z c, ext_of S z = Some c -> ext_lt a c -> ext_lt c b -> finite z /\ c = Fin (value S z).
Proof.
  intros a b z c Z A B. unfold ext_of in Z.
  destruct (category z) eqn:C; try discriminate Z; apply (f_equal (fun o => match o with Some z => z | None => c end)) in Z; cbv beta iota in Z; subst c.
  - exfalso. destruct (sign z); [destruct a; exact A|destruct b; exact B].
  - split; [left; exact C|reflexivity].
  - split; [right; exact C|reflexivity].
Qed.

Lemma next_finite : forall x z r a d, wf S z -> wf S r -> ext_of S z = Some d -> finite z -> ext_lt a d ->
  signed (sign z) (ikey z) = signed (sign x) (ikey x) + 1 ->
  ((exists y, representable S y /\ ext_lt a (Fin y)) ->
     finite r /\ ext_lt a (Fin (value S r)) /\
     forall y, representable S y -> ext_lt a (Fin y) -> (value S r <= y)%R) ->
  (finite r -> ext_lt a (Fin (value S r)) -> signed (sign x) (ikey x) < signed (sign r) (ikey r)) ->
  signed (sign r) (ikey r) = signed (sign x) (ikey x) + 1.
Proof.
  intros x z r a d Wz Wr Dz Fz AD Kz L1 above. rewrite (ext_of_finite S z Fz) in Dz.
  assert (d = Fin (value S z)) as -> by congruence. clear Dz.
  pose proof (representable_value S z HS Wz) as Rz.
  destruct (L1 (ex_intro _ _ (conj Rz AD))) as [Fr [Lr Mr]]. pose proof (above Fr Lr) as H. pose proof (Mr _ Rz AD) as Le.
  pose proof (ikey_order r z _ _ Wr Wz (ext_of_finite S r Fr) (ext_of_finite S z Fz)) as Q. rewrite Kz in Q.
  destruct (Z.compare_spec (signed (sign r) (ikey r)) (signed (sign x) (ikey x) + 1)) as [H'|H'|H']; [exact H'|lia|].
  cbn [ext_compare ext_lt] in Q. lra.
Qed.

Theorem next_up_encoding : forall x b, wf S x -> category x <> NaN -> ~ (category x = Infinity /\ sign x = false) ->
  to_bits S x = Ret b ->
  exists r c, next_up S x = Ret (OK, r) /\ to_bits S r = Ret c /\ rank bits c = rank bits b + 1.
Proof.
  intros x b W N NI B. destruct (not_nan_ext x N) as [a A].
  destruct (next_up_spec S x a HS W A) as [r [R [[Wr [L1 L2]] _]]].
  destruct (to_bits_total r Wr) as [c C]. exists r, c. split; [exact R|]. split; [exact C|].
  rewrite (proj1 (rank_ikey x b W B)), (proj1 (rank_ikey r c Wr C)).
  pose proof (not_nan_top x W N) as Tx.
  destruct (Z.eq_dec (signed (sign x) (ikey x)) itop) as [E|E].
  - assert (nf = IEEE754 \/ nf = NanOnly) as [En|En] by (destruct nf; auto).
    + exfalso. apply NI. set (i := mkFloat 0 0 Infinity false).
      assert (wf S i) as Wi by (split; [|split]; [split; reflexivity || (cbn; lia)|split; reflexivity || (cbn; lia)|exact En]).
      pose proof (ikey_order x i a PosInf W Wi A eq_refl) as Q. rewrite E in Q.
      replace (signed (sign i) (ikey i)) with itop in Q by (unfold itop, ikey, encode_exp, encode_frac, i; cbn [category sign signed]; rewrite En; lia).
      rewrite Z.compare_refl in Q. cbn [ext_compare] in Q. subst a. unfold ext_of in A.
      destruct (category x) eqn:Cx; try discriminate A. split; [reflexivity|]. destruct (sign x); [discriminate A|reflexivity].
    + assert (~ (exists y, representable S y /\ ext_lt a (Fin y))) as Nothing.
      { intro Q. destruct (L1 Q) as [Fr [Lr _]]. pose proof (not_nan_top r Wr ltac:(destruct Fr; congruence)) as Tr.
        pose proof (ikey_order x r a (Fin (value S r)) W Wr A (ext_of_finite S r Fr)) as Q1. rewrite E in Q1.
        destruct (Z.compare_spec itop (signed (sign r) (ikey r))) as [H|H|H]; cbn [ext_compare] in Q1.
        - subst a. exact (ext_lt_irrefl _ Lr).
        - unfold signed in H. destruct (sign r); lia.
        - exact (ext_lt_irrefl _ (ext_lt_trans _ _ _ Lr Q1)). }
      destruct (L2 Nothing) as [Cr Sr]. rewrite Sr, E. unfold signed. unfold infinity_of in Cr. change (NONFINITE_BEHAVIOR S) with nf in Cr. rewrite En in Cr.
      pose proof (proj1 (ikey_nan r Wr) Cr) as H1. pose proof (ikey_range r Wr) as H2. unfold itop in *. rewrite En in *. lia.
  - destruct (rank_onto (signed (sign x) (ikey x) + 1)) as [z [Wz [Nz Kz]]].
    { unfold signed in *. destruct (sign x); lia. }
    destruct (not_nan_ext z Nz) as [d Dz].
    pose proof (ikey_order x z a d W Wz A Dz) as AD. rewrite Kz in AD.
    replace (signed (sign x) (ikey x) ?= signed (sign x) (ikey x) + 1) with Lt in AD by (symmetry; apply Z.compare_lt_iff; lia).
    cbn [ext_compare] in AD.
    assert (above : finite r -> ext_lt a (Fin (value S r)) -> signed (sign x) (ikey x) < signed (sign r) (ikey r)).
    { intros Fr Lr. pose proof (ikey_order x r a (Fin (value S r)) W Wr A (ext_of_finite S r Fr)) as Q1.
      destruct (Z.compare_spec (signed (sign x) (ikey x)) (signed (sign r) (ikey r))) as [H|H|H]; cbn [ext_compare] in Q1; [| assumption |].
      - subst a. destruct (ext_lt_irrefl _ Lr).
      - destruct (ext_lt_irrefl _ (ext_lt_trans _ _ _ Lr Q1)). }
    destruct (category z) eqn:Cz.
    + (* infinity *)
      assert (d = PosInf) as -> .
      { unfold ext_of in Dz. rewrite Cz in Dz. destruct (sign z); [exfalso|congruence].
        assert (d = NegInf) as -> by congruence. destruct a; exact AD. }
      assert (nf = IEEE754) as En by (destruct Wz as [_ [_ Wz]]; rewrite Cz in Wz; exact Wz).
      assert (~ (exists y, representable S y /\ ext_lt a (Fin y))) as Nothing.
      { intro Q. destruct (L1 Q) as [Fr [Lr _]]. pose proof (above Fr Lr) as H.
        pose proof (ikey_order z r PosInf (Fin (value S r)) Wz Wr Dz (ext_of_finite S r Fr)) as Q1. rewrite Kz in Q1.
        destruct (Z.compare_spec (signed (sign x) (ikey x) + 1) (signed (sign r) (ikey r))) as [H'|H'|H']; cbn [ext_compare ext_lt] in Q1; [discriminate Q1|destruct Q1|lia]. }
      destruct (L2 Nothing) as [Cr Sr]. unfold infinity_of in Cr. change (NONFINITE_BEHAVIOR S) with nf in Cr. rewrite En in Cr.
      rewrite <- Kz. assert (sign z = false) as -> by (unfold ext_of in Dz; rewrite Cz in Dz; destruct (sign z); [discriminate Dz|reflexivity]).
      rewrite Sr. unfold signed, ikey, encode_exp, encode_frac. rewrite Cr, Cz. reflexivity.
    + destruct (Nz eq_refl).
    + apply (next_finite x z r a d); auto. left; exact Cz.
    + apply (next_finite x z r a d); auto. right; exact Cz.
Qed.

Lemma ikey_neg : forall x, ikey (neg x) = ikey x.
Proof. reflexivity. Qed.

Theorem next_down_encoding : forall x b, wf S x -> category x <> NaN -> ~ (category x = Infinity /\ sign x = true) ->
  to_bits S x = Ret b ->
  exists r c, next_down S x = Ret (OK, r) /\ to_bits S r = Ret c /\ rank bits c = rank bits b - 1.
Proof.
  intros x b W N NI B. assert (Wn : wf S (neg x)) by exact W.
  destruct (to_bits_total (neg x) Wn) as [bn Bn].
  destruct (next_up_encoding (neg x) bn Wn N) as [r [c [R [C K]]]].
  { intros [P Q]. apply NI. split; [exact P|]. rewrite neg_spec in Q. cbn [sign] in Q. destruct (sign x); [reflexivity|discriminate Q]. }
  { exact Bn. }
  assert (Wr : wf S r).
  { destruct (not_nan_ext (neg x) N) as [a A]. destruct (next_up_spec S (neg x) a HS Wn A) as [r' [R' [[Wr' _] _]]]. rewrite R in R'. congruence. }
  destruct (to_bits_total (neg r) Wr) as [cn Cn]. exists (neg r), cn. split.
  { unfold next_down. rewrite R. reflexivity. }
  split; [exact Cn|].
  rewrite (proj1 (rank_ikey (neg r) cn Wr Cn)), (proj1 (rank_ikey x b W B)).
  rewrite (proj1 (rank_ikey r c Wr C)), (proj1 (rank_ikey (neg x) bn Wn Bn)) in K.
  rewrite !ikey_neg in *. rewrite !neg_spec in *. cbn [sign] in *. unfold signed in *. destruct (sign x), (sign r); cbn [negb] in *; lia.
Qed.
End Ieee.

(** ** The x87 format: ordered as well, but the neighbour of an encoding need not be the next one *)
Definition xkey (x : Float) : Z := encode_exp_x87 x * 2 ^ 64 + encode_frac_x87 x.

Lemma rank_xkey : forall x b, wf X87DoubleExtendedS x -> to_bits X87DoubleExtendedS x = Ret b ->
  rank 80 b = signed (sign x) (xkey x).
Proof.
  intros x b W B. pose proof (to_bits_x87_fields x W) as F. rewrite B in F.
  apply (f_equal (fun o => match o with Ret z => z | _ => b end)) in F. cbv beta iota in F.
  destruct (encode_ranges_x87 x W) as [R1 R2]. unfold xkey.
  set (e := encode_exp_x87 x) in *. set (f := encode_frac_x87 x) in *. clearbody e f.
  change (2 ^ 15) with 32768 in R1. unfold rank, signed. change (80 - 1) with 79.
  replace (2 ^ 79) with (32768 * 2 ^ 64) in * by reflexivity. assert (0 < 2 ^ 64) by reflexivity.
  set (p := 2 ^ 64) in *. clearbody p.
  destruct (sign x); cbn [b2z] in F; subst b.
  - destruct (Z.leb_spec (32768 * p) (1 * (32768 * p) + e * p + f)); nia.
  - destruct (Z.leb_spec (32768 * p) (0 * (32768 * p) + e * p + f)); nia.
Qed.

Theorem encoding_order_x87 : forall x y b c, wf X87DoubleExtendedS x -> wf X87DoubleExtendedS y ->
  category x <> NaN -> category y <> NaN ->
  to_bits X87DoubleExtendedS x = Ret b -> to_bits X87DoubleExtendedS y = Ret c ->
  partial_cmp x y = Ret (Some (rank 80 b ?= rank 80 c)).
Proof.
  intros x y b c Wx Wy Nx Ny B C. rewrite (rank_xkey x b Wx B), (rank_xkey y c Wy C).
  assert (D : 2 ^ 64 = 2 * 2 ^ 63) by reflexivity. assert (P : 0 < 2 ^ 63) by reflexivity.
  apply (key_cmp X87DoubleExtendedS xkey); try assumption; try exact x87_ok; clear.
  - intros x C. unfold xkey, encode_exp_x87, encode_frac_x87. rewrite C. reflexivity.
  - intros x W C. destruct (x87_normal x W C) as [H1 [H2 H3]]. unfold xkey, encode_exp_x87, encode_frac_x87. rewrite C.
    destruct (sig x <? 2 ^ 63); lia.
  - intros x y Wx Wy Cx Cy H. destruct (x87_normal x Wx Cx) as [H1 [H2 H3]]. destruct (x87_normal y Wy Cy) as [J1 [J2 J3]].
    apply (proj1 (mag_split _ x y x87_ok Wx Wy Cx Cy)) in H.
    unfold xkey, encode_exp_x87, encode_frac_x87. rewrite Cx, Cy.
    destruct (Z.ltb_spec (sig x) (2 ^ 63)), (Z.ltb_spec (sig y) (2 ^ 63)); lia.
  - intros x y Wx Wy Cx Cy H. destruct (proj2 (mag_split _ x y x87_ok Wx Wy Cx Cy) H) as [E F].
    unfold xkey, encode_exp_x87, encode_frac_x87. rewrite Cx, Cy, E, F. reflexivity.
  - intros x y Wx Cx Wy Cy. destruct (x87_normal y Wy Cy) as [J1 [J2 J3]].
    unfold xkey, encode_exp_x87, encode_frac_x87. rewrite Cx, Cy. destruct (Z.ltb_spec (sig y) (2 ^ 63)); lia.
  - intros x y Cx Cy. unfold xkey, encode_exp_x87, encode_frac_x87. rewrite Cx, Cy. split; reflexivity.
Qed.

(** the number below a power of two has the significand of all ones, the power
    itself the significand 2^63 with the next exponent *)
Theorem next_up_x87_refuted : exists x b r c, wf X87DoubleExtendedS x /\ category x = Normal /\
  to_bits X87DoubleExtendedS x = Ret b /\ next_up X87DoubleExtendedS x = Ret (OK, r) /\
  to_bits X87DoubleExtendedS r = Ret c /\ rank 80 c <> rank 80 b + 1.
Proof.
  exists (mkFloat (2 ^ 64 - 1) 0 Normal false). eexists. eexists. eexists.
  split; [vm_compute; repeat split; try discriminate; right; discriminate|]. split; [reflexivity|].
  split; [vm_compute; reflexivity|]. split; [vm_compute; reflexivity|]. split; [vm_compute; reflexivity|]. vm_compute. discriminate.
Qed.

(** ** The formats of the crate *)
Theorem encoding_order_crate : forall bits eb nf, In (bits, eb, nf) interchange_formats ->
  let S := ieee_semantics bits eb nf in
  forall x y b c, wf S x -> wf S y -> category x <> NaN -> category y <> NaN ->
  to_bits S x = Ret b -> to_bits S y = Ret c -> partial_cmp x y = Ret (Some (rank bits b ?= rank bits c)).
Proof. intros bits eb nf H. destruct (interchange_ok bits eb nf H). apply encoding_order; assumption. Qed.
Theorem next_up_encoding_crate : forall bits eb nf, In (bits, eb, nf) interchange_formats ->
  let S := ieee_semantics bits eb nf in
  forall x b, wf S x -> category x <> NaN -> ~ (category x = Infinity /\ sign x = false) -> to_bits S x = Ret b ->
  exists r c, next_up S x = Ret (OK, r) /\ to_bits S r = Ret c /\ rank bits c = rank bits b + 1.
Proof. intros bits eb nf H. destruct (interchange_ok bits eb nf H). apply next_up_encoding; assumption. Qed.
Theorem next_down_encoding_crate : forall bits eb nf, In (bits, eb, nf) interchange_formats ->
  let S := ieee_semantics bits eb nf in
  forall x b, wf S x -> category x <> NaN -> ~ (category x = Infinity /\ sign x = true) -> to_bits S x = Ret b ->
  exists r c, next_down S x = Ret (OK, r) /\ to_bits S r = Ret c /\ rank bits c = rank bits b - 1.
Proof. intros bits eb nf H. destruct (interchange_ok bits eb nf H). apply next_down_encoding; assumption. Qed.
