(** * Widening.v -- operations and comparisons on numbers converted to a wider format *)
From Coq Require Import ZArith Reals List Bool Lia Lra.
From Flocq Require Import Core.
From Verif Require Import Machine Ieee Spec Norm Arith Order Orderx Rem Special Int Integral Scale Algebra Laws Convert Samples Symmetry Rewrites.
Import ListNotations.
Local Open Scope Z_scope.
Ltac Zify.zify_post_hook ::= idtac.

Section Widening.
Variables S T : Semantics.
Hypothesis HS : sem_ok S.
Hypothesis HT : sem_ok T.
Hypothesis HC : contains T S.
(** [x] can be converted: infinities have a counterpart *)
Definition has_counterpart (x : Float) : Prop := category x = Infinity -> NONFINITE_BEHAVIOR T = IEEE754.
Definition same_number (x X : Float) : Prop :=
  wf S x /\ wf T X /\ category X = category x /\ sign X = sign x /\ ext_of T X = ext_of S x /\ (finite x -> value T X = value S x).
Lemma sign_same : forall R F x X g, wf F x -> finite x -> (R = value F x)%R ->
  ((R < 0)%R -> sign X = true) /\ ((0 < R)%R -> sign X = false) /\ (R = 0%R -> sign X = g) -> g = sign x -> sign X = sign x.
Proof.
  intros R F x X g Wx Fx -> [A1 [A2 A3]] ->. destruct (Rtotal_order (value F x) 0) as [H|[H|H]].
  - rewrite (A1 H). symmetry. destruct (sign x) eqn:Gx; [reflexivity|exfalso].
    destruct Fx as [Cx|Cx]; [|rewrite (value_zero F x Cx) in H; lra]. rewrite value_normal, Gx in H by assumption. cbn [sgnr] in H.
    pose proof (value_pos F x Wx Cx). lra.
  - exact (A3 H).
  - rewrite (A2 H). symmetry. destruct (sign x) eqn:Gx; [exfalso|reflexivity].
    destruct Fx as [Cx|Cx]; [|rewrite (value_zero F x Cx) in H; lra]. rewrite value_normal, Gx in H by assumption. cbn [sgnr] in H.
    pose proof (value_pos F x Wx Cx). lra.
Qed.
Lemma finite_category : forall F G x X, wf F x -> wf G X -> finite x -> finite X -> value G X = value F x -> category X = category x.
Proof.
  intros F G x X Wx WX Fx FX V. destruct Fx as [C|C], FX as [D|D]; rewrite C, D; try reflexivity; exfalso.
  - apply (Algebra.normal_nonzero F x Wx C). rewrite <- V. apply value_zero. exact D.
  - apply (Algebra.normal_nonzero G X WX D). rewrite V. apply value_zero. exact C.
Qed.
Lemma number_of_finite : forall x X, wf S x -> wf T X -> finite x -> finite X -> value T X = value S x -> sign X = sign x -> same_number x X.
Proof.
  intros x X Wx WX Fx FX V G. pose proof (finite_category S T x X Wx WX Fx FX V) as C. split; [exact Wx|]. split; [exact WX|]. split; [exact C|]. split; [exact G|].
  split; [|intros _; exact V]. unfold ext_of. rewrite C. destruct Fx as [C'|C']; rewrite C', V; reflexivity.
Qed.
Lemma converted_finite : forall x m st X lost, wf S x -> finite x -> convert_r S T x m = Ret (st, X, lost) -> same_number x X.
Proof.
  intros x m st X lost Wx Fx E. pose proof (finite_representable S x HS Wx Fx) as RS. pose proof (contains_representable S T _ HS HT HC RS) as RT.
  destruct (convert_r_finite S T x m HS HT Wx Fx (side_of_representable _ _ _ HT RT)) as [st2 [r [l [E2 [C L]]]]]. rewrite E in E2. inversion E2; subst.
  destruct (cr_representable T m _ _ _ _ HT RT C) as [_ [Fr Vr]]. destruct C as [Wr [Sr _]].
  apply number_of_finite; try assumption. exact (sign_same _ S x r _ Wx Fx eq_refl Sr eq_refl).
Qed.
Lemma converted : forall x m st X lost, wf S x -> has_counterpart x -> convert_r S T x m = Ret (st, X, lost) -> same_number x X.
Proof.
  intros x m st X lost Wx N E. destruct (category x) eqn:C.
  - destruct (convert_r_infinite S T x m HT C) as [r [E2 [W [C2 G]]]]. rewrite E in E2. inversion E2; subst. unfold infinity_of in C2. rewrite (N C) in C2.
    unfold same_number, ext_of. rewrite C, C2, G. split; [exact Wx|]. split; [exact W|]. repeat split. intros [F|F]; congruence.
  - destruct (convert_r_nan S T x m HS HT Wx C) as [r [l [E2 [[W [C2 _]] [G _]]]]]. rewrite E in E2. inversion E2; subst.
    unfold same_number, ext_of. rewrite C, C2, G. split; [exact Wx|]. split; [exact W|]. repeat split. intros [F|F]; congruence.
  - apply (converted_finite x m st X lost Wx (or_introl C) E).
  - apply (converted_finite x m st X lost Wx (or_intror C) E).
Qed.
(** *** Comparisons *)
Lemma compare_same : forall x y X Y, same_number x X -> same_number y Y -> partial_cmp X Y = partial_cmp x y.
Proof.
  intros x y X Y [Wx [WX [_ [_ [Ex _]]]]] [Wy [WY [_ [_ [Ey _]]]]].
  destruct (partial_cmp_spec S x y HS Wx Wy) as [r [E H]]. destruct (partial_cmp_spec T X Y HT WX WY) as [r' [E' H']]. rewrite E, E'. f_equal.
  rewrite Ex, Ey in H'. destruct (ext_of S x) as [a|], (ext_of S y) as [b|], r as [c|], r' as [c'|]; try contradiction; try reflexivity.
  f_equal. destruct c, c'; cbn [ext_compare] in *; try reflexivity; subst; try (destruct (ext_lt_irrefl _ H)); try (destruct (ext_lt_irrefl _ H')).
  - destruct (ext_lt_irrefl _ (ext_lt_trans _ _ _ H H')).
  - destruct (ext_lt_irrefl _ (ext_lt_trans _ _ _ H H')).
Qed.
Lemma choice_same : forall (f : Float -> Float -> outcome Float), f = min \/ f = max \/ f = minimum \/ f = maximum ->
  forall x y X Y, same_number x X -> same_number y Y ->
  exists b : bool, f x y = Ret (if b then x else y) /\ f X Y = Ret (if b then X else Y).
Proof.
  intros f K x y X Y NX NY. pose proof (compare_same x y X Y NX NY) as P1. pose proof (compare_same y x Y X NY NX) as P2.
  destruct NX as [Wx [WX [Cx [Gx [Ex _]]]]]. destruct NY as [Wy [WY [Cy [Gy [Ey _]]]]].
  destruct (partial_cmp_spec S x y HS Wx Wy) as [r1 [Q1 _]]. destruct (partial_cmp_spec S y x HS Wy Wx) as [r2 [Q2 _]]. rewrite Q1 in P1. rewrite Q2 in P2.
  destruct K as [->|[->|[->| ->]]]; unfold min, max, minimum, maximum, lt_f, is_nan, is_zero, is_negative; rewrite ?P1, ?P2, ?Q1, ?Q2, ?Cx, ?Cy, ?Gx, ?Gy; cbn [bind];
    destruct (category_eqb (category x) NaN); [exists false; split; reflexivity| |exists false; split; reflexivity| |exists true; split; reflexivity| |exists true; split; reflexivity|];
    destruct (category_eqb (category y) NaN).
  - exists true; split; reflexivity.
  - exists (match r2 with Some Lt => false | _ => true end). destruct r2 as [[]|]; split; reflexivity.
  - exists true; split; reflexivity.
  - exists (match r1 with Some Lt => false | _ => true end). destruct r1 as [[]|]; split; reflexivity.
  - exists false; split; reflexivity.
  - destruct (category_eqb (category x) Zero && category_eqb (category y) Zero && xorb (sign x) (sign y)).
    + exists (sign x). destruct (sign x); split; reflexivity.
    + exists (match r2 with Some Lt => false | _ => true end). destruct r2 as [[]|]; split; reflexivity.
  - exists false; split; reflexivity.
  - destruct (category_eqb (category x) Zero && category_eqb (category y) Zero && xorb (sign x) (sign y)).
    + exists (negb (sign x)). destruct (sign x); split; reflexivity.
    + exists (match r1 with Some Lt => false | _ => true end). destruct r1 as [[]|]; split; reflexivity.
Qed.
(** *** Integers *)
Lemma value_same : forall x X, category X = category x -> (finite x -> value T X = value S x) -> value T X = value S x.
Proof.
  intros x X C V. destruct (category x) eqn:D; try (apply V; unfold finite; rewrite D; auto; fail); unfold value; rewrite C, D; reflexivity.
Qed.
Lemma int_same : forall x X m lo hi st n st' n', wf S x -> category X = category x -> sign X = sign x -> (finite x -> value T X = value S x) ->
  converted_to_int S x m lo hi st n -> converted_to_int T X m lo hi st' n' -> st' = st /\ n' = n.
Proof.
  intros x X m lo hi st n st' n' Wx C G V D1 D2. unfold converted_to_int in *. rewrite (value_same x X C V), C, G in D2.
  assert (K : forall k : Z, (k < lo -> st = INVALID_OP /\ n = lo) /\ (hi < k -> st = INVALID_OP /\ n = hi) /\
      (lo <= k <= hi -> n = k /\ (IZR k = value S x -> st = OK) /\ (IZR k <> value S x -> st = INEXACT)) ->
    (k < lo -> st' = INVALID_OP /\ n' = lo) /\ (hi < k -> st' = INVALID_OP /\ n' = hi) /\
      (lo <= k <= hi -> n' = k /\ (IZR k = value S x -> st' = OK) /\ (IZR k <> value S x -> st' = INEXACT)) -> st' = st /\ n' = n).
  { intros k [A1 [A2 A3]] [B1 [B2 B3]]. destruct (Z_lt_le_dec k lo) as [H|H].
    - destruct (A1 H), (B1 H). split; congruence.
    - destruct (Z_lt_le_dec hi k) as [H'|H'].
      + destruct (A2 H'), (B2 H'). split; congruence.
      + destruct (A3 (conj H H')) as [-> [P1 P2]]. destruct (B3 (conj H H')) as [-> [Q1 Q2]]. split; [|reflexivity].
        destruct (Req_dec (IZR k) (value S x)) as [Q|Q]; [rewrite (P1 Q), (Q1 Q)|rewrite (P2 Q), (Q2 Q)]; reflexivity. }
  destruct (category x).
  - destruct D1, D2. split; congruence.
  - destruct D1, D2. split; congruence.
  - exact (K _ D1 D2).
  - exact (K _ D1 D2).
Qed.
Lemma to_u128_same : forall x X, same_number x X -> forall w m, 1 <= w <= 128 -> to_u128_r T X w m = to_u128_r S x w m.
Proof.
  intros x X [Wx [WX [C [G [E V]]]]] w m Hw.
  destruct (to_u128_r_spec S x w m HS Wx Hw) as [st [n [ex [E1 [D1 X1]]]]]. destruct (to_u128_r_spec T X w m HT WX Hw) as [st' [n' [ex' [E2 [D2 X2]]]]].
  rewrite E1, E2. assert (A : st' = st /\ n' = n) by (apply (int_same x X m _ _ _ _ _ _ Wx C G V D1 D2)). destruct A as [-> ->].
  f_equal. f_equal. rewrite C, G in X2. assert (VV : value T X = value S x) by (apply value_same; assumption). rewrite VV in X2.
  destruct ex, ex'; try reflexivity; [apply X2, X1; reflexivity|symmetry; apply X1, X2; reflexivity].
Qed.
Lemma to_i128_same : forall x X, same_number x X -> forall w m, 2 <= w <= 128 -> to_i128_r T X w m = to_i128_r S x w m.
Proof.
  intros x X [Wx [WX [C [G [E V]]]]] w m Hw.
  assert (H1 : (if sign x then 1 else 2) <= w <= 128) by (destruct (sign x); lia). assert (H2 : (if sign X then 1 else 2) <= w <= 128) by (destruct (sign X); lia).
  destruct (to_i128_r_spec S x w m HS Wx H1) as [st [n [ex [E1 [D1 X1]]]]]. destruct (to_i128_r_spec T X w m HT WX H2) as [st' [n' [ex' [E2 [D2 X2]]]]].
  rewrite E1, E2. assert (A : st' = st /\ n' = n) by (apply (int_same x X m _ _ _ _ _ _ Wx C G V D1 D2)). destruct A as [-> ->].
  f_equal. f_equal. assert (VV : value T X = value S x) by (apply value_same; assumption). rewrite VV in X2.
  destruct ex, ex'; try reflexivity; [apply X2, X1; reflexivity|symmetry; apply X1, X2; reflexivity].
Qed.
Lemma ilogb_same : forall x X, same_number x X -> ilogb T X = ilogb S x.
Proof.
  intros x X [Wx [WX [C [G [E V]]]]]. destruct (ilogb_special S x) as [A1 [A2 A3]]. destruct (ilogb_special T X) as [B1 [B2 B3]]. rewrite C in B1, B2, B3.
  destruct (category x) eqn:D.
  - rewrite A3, B3; reflexivity.
  - rewrite A1, B1; reflexivity.
  - destruct (ilogb_normal S x HS Wx D) as [e [E1 [L1 _]]]. destruct (ilogb_normal T X HT WX C) as [e' [E2 [L2 _]]]. rewrite E1, E2. f_equal.
    rewrite V in L2 by (left; exact D). assert (e < e' + 1) by (apply (lt_bpow r2); lra). assert (e' < e + 1) by (apply (lt_bpow r2); lra). lia.
  - rewrite A2, B2; reflexivity.
Qed.
Lemma neg_same : forall x X, same_number x X -> same_number (neg x) (neg X).
Proof.
  intros x X [Wx [WX [C [G [E V]]]]]. split; [apply wf_neg; exact Wx|]. split; [apply wf_neg; exact WX|]. split; [exact C|]. split; [rewrite !sign_neg, G; reflexivity|].
  assert (V' : finite (neg x) -> value T (neg X) = value S (neg x)) by (intros F; rewrite !value_neg; f_equal; apply V; exact F).
  split; [|exact V']. unfold ext_of. rewrite !sign_neg, G. change (category (neg X)) with (category X). change (category (neg x)) with (category x). rewrite C.
  destruct (category x) eqn:D; try reflexivity; (rewrite V'; [reflexivity|]); unfold finite; change (category (neg x)) with (category x); rewrite D; tauto.
Qed.
Lemma abs_same : forall x X, same_number x X -> same_number (Ieee.abs x) (Ieee.abs X).
Proof.
  intros x X N. pose proof N as [_ [_ [_ [G _]]]]. unfold Ieee.abs, is_negative. rewrite G. destruct (sign x); [apply neg_same|]; exact N.
Qed.
(** *** Rounding to integers *)
Lemma integral_same : forall x X, same_number x X -> finite x -> forall m, exists st r R,
  round_to_integral S x m = Ret (st, r) /\ round_to_integral T X m = Ret (st, R) /\ same_number r R.
Proof.
  intros x X [Wx [WX [C [G [E V]]]]] Fx m. assert (FX : finite X) by (unfold finite in *; rewrite C; exact Fx). specialize (V Fx).
  destruct (round_to_integral_finite S x m HS Wx Fx) as [st [r [E1 [W1 [F1 [V1 [G1 [O1 I1]]]]]]]].
  destruct (round_to_integral_finite T X m HT WX FX) as [st' [R [E2 [W2 [F2 [V2 [G2 [O2 I2]]]]]]]].
  rewrite V in *. assert (VR : value T R = value S r) by congruence. exists st, r, R. split; [exact E1|].
  assert (st' = st) as ->.
  { destruct (Req_dec (value S r) (value S x)) as [Q|Q]; [rewrite (O1 Q), O2; congruence|rewrite (I1 Q), I2; congruence]. }
  split; [exact E2|]. apply number_of_finite; try assumption. congruence.
Qed.
(** what conversion gives for the second is bit for bit the first *)
Lemma bits_same : forall x X, same_number x X -> finite x -> forall m, exists Y, convert_r S T x m = Ret (OK, Y, false) /\ bitwise_eq Y X = true.
Proof.
  intros x X [Wx [WX [C [G [E V]]]]] Fx m. destruct (convert_round_trip S T x m m HS HT Wx Fx HC) as [Y [E1 [WY [FY [VY _]]]]].
  exists Y. split; [exact E1|]. assert (FX : finite X) by (unfold finite in *; rewrite C; exact Fx).
  destruct (converted_finite x m _ _ _ Wx Fx E1) as [_ [_ [_ [GY _]]]]. apply (Convert.same_finite T); try assumption; [rewrite V by exact Fx; exact VY|congruence].
Qed.
(** *** Comparing with a number of the wider format *)
Hypothesis HI : NONFINITE_BEHAVIOR S = IEEE754.
Lemma less_bool : forall F x y, sem_ok F -> wf F x -> wf F y -> finite x -> finite y -> lt_f x y = Ret (Rlt_bool (value F x) (value F y)).
Proof.
  intros F x y HF Wx Wy Fx Fy. unfold lt_f. rewrite (partial_cmp_finite F x y HF Wx Wy Fx Fy). cbn [bind]. unfold Rlt_bool.
  destruct (Rcompare (value F x) (value F y)); reflexivity.
Qed.
Lemma greater_bool : forall F x y, sem_ok F -> wf F x -> wf F y -> finite x -> finite y -> gt_f x y = Ret (Rlt_bool (value F y) (value F x)).
Proof.
  intros F x y HF Wx Wy Fx Fy. unfold gt_f. rewrite (partial_cmp_finite F x y HF Wx Wy Fx Fy). cbn [bind]. unfold Rlt_bool.
  rewrite (Rcompare_sym (value F y) (value F x)). destruct (Rcompare (value F x) (value F y)); reflexivity.
Qed.
Lemma up_below : forall x v, generic_format r2 (fexp S) x -> Rlt_bool x v = Rlt_bool x (rounded S TowardPositive v).
Proof.
  intros x v Fx. pose proof (fexp_valid S HS) as VE. unfold rounded, rnd_of. destruct (Rlt_bool_spec x v) as [L|L].
  - symmetry. apply Rlt_bool_true. eapply Rlt_le_trans; [exact L|]. apply round_UP_pt. exact VE.
  - symmetry. apply Rlt_bool_false. apply round_UP_pt; assumption.
Qed.
Lemma down_above : forall x v, generic_format r2 (fexp S) x -> Rlt_bool v x = Rlt_bool (rounded S TowardNegative v) x.
Proof.
  intros x v Fx. pose proof (fexp_valid S HS) as VE. unfold rounded, rnd_of. destruct (Rlt_bool_spec v x) as [L|L].
  - symmetry. apply Rlt_bool_true. eapply Rle_lt_trans; [|exact L]. apply round_DN_pt. exact VE.
  - symmetry. apply Rlt_bool_false. apply round_DN_pt; assumption.
Qed.
Lemma cmp_infinite : forall x k, wf S x -> finite x -> wf S k -> category k = Infinity ->
  partial_cmp x k = Ret (Some (if sign k then Gt else Lt)).
Proof.
  intros x k Wx Fx Wk Ck. destruct (partial_cmp_spec S x k HS Wx Wk) as [r [E H]]. rewrite E. assert (X0 : ext_of S x = Some (Fin (value S x))) by (unfold ext_of; destruct Fx as [C|C]; rewrite C; reflexivity). rewrite X0 in H. unfold ext_of in H. rewrite Ck in H.
  destruct r as [c|]; [|destruct (sign k); contradiction]. destruct (sign k), c; cbn [ext_compare ext_lt] in H; try contradiction; try discriminate H; reflexivity.
Qed.
Lemma negative_value : forall k, wf S k -> category k = Normal -> (if sign k then value S k < 0 else 0 < value S k)%R.
Proof.
  intros k Wk Ck. pose proof (value_pos S k Wk Ck) as P. rewrite value_normal by exact Ck. destruct (sign k); cbn [sgnr]; lra.
Qed.
Lemma constant_above : forall x X c st k lost, same_number x X -> finite x -> wf T c -> finite c ->
  convert_r T S c TowardPositive = Ret (st, k, lost) -> lt_f X c = lt_f x k.
Proof.
  intros x X c st k lost [Wx [WX [C [G [E V]]]]] Fx Wc Fc K. assert (FX : finite X) by (unfold finite in *; rewrite C; exact Fx). specialize (V Fx).
  rewrite (less_bool T X c HT WX Wc FX Fc), V. set (v := value T c) in *.
  pose proof (value_format S x HS Wx) as Gx. rewrite (up_below _ v Gx). pose proof (value_le_max S x HS Wx) as M. apply Rabs_le_inv in M.
  destruct (convert_r_ieee T S c TowardPositive HT HS HI Wc Fc) as [st2 [k2 [l2 [E2 [[Wk [Sk [D1 D2]]] _]]]]]. rewrite K in E2. inversion E2; subst. fold v in Sk, D1, D2.
  set (r := rounded S TowardPositive v) in *.
  destruct (Rle_or_lt (Rabs r) (max_finite S)) as [L|L].
  - destruct (D1 L) as [Fk [Vk _]]. rewrite (less_bool S x k2 HS Wx Wk Fx Fk), Vk. reflexivity.
  - specialize (D2 L). pose proof (max_finite_pos S HS) as MP. destruct Sk as [S1 [S2 _]].
    assert (SG : (0 < v)%R /\ (max_finite S < r)%R \/ (v < 0)%R /\ (r < - max_finite S)%R).
    { pose proof (rounded_0 S TowardPositive) as R0. destruct (Rtotal_order v 0) as [H|[H|H]].
      - right. split; [exact H|]. assert (r <= 0)%R by (unfold r; rewrite <- R0; apply rounded_mono; [exact HS|lra]). rewrite Rabs_left1 in L by lra. lra.
      - exfalso. unfold r in L. rewrite H, R0, Rabs_R0 in L. lra.
      - left. split; [exact H|]. assert (0 <= r)%R by (unfold r; rewrite <- R0; apply rounded_mono; [exact HS|lra]). rewrite Rabs_pos_eq in L by lra. lra. }
    destruct SG as [[H R]|[H R]].
    + rewrite (S2 H) in D2. cbn [to_infinity negb] in D2. rewrite HI in D2. destruct D2 as [_ Ck].
      rewrite Rlt_bool_true by lra. unfold lt_f. rewrite (cmp_infinite x k2 Wx Fx Wk Ck), (S2 H). cbn [bind]. reflexivity.
    + rewrite (S1 H) in D2. cbn [to_infinity negb] in D2. destruct D2 as [_ [Ck Vk]]. rewrite Rlt_bool_false by lra.
      assert (Fk : finite k2) by (left; exact Ck). rewrite (less_bool S x k2 HS Wx Wk Fx Fk). rewrite Rlt_bool_false; [reflexivity|].
      assert (value S k2 < 0)%R by (pose proof (negative_value k2 Wk Ck) as NV; rewrite (S1 H) in NV; exact NV). rewrite Rabs_left in Vk by assumption. lra.
Qed.
Lemma constant_below : forall x X c st k lost, same_number x X -> finite x -> wf T c -> finite c ->
  convert_r T S c TowardNegative = Ret (st, k, lost) -> gt_f X c = gt_f x k.
Proof.
  intros x X c st k lost [Wx [WX [C [G [E V]]]]] Fx Wc Fc K. assert (FX : finite X) by (unfold finite in *; rewrite C; exact Fx). specialize (V Fx).
  rewrite (greater_bool T X c HT WX Wc FX Fc), V. set (v := value T c) in *.
  pose proof (value_format S x HS Wx) as Gx. rewrite (down_above _ v Gx). pose proof (value_le_max S x HS Wx) as M. apply Rabs_le_inv in M.
  destruct (convert_r_ieee T S c TowardNegative HT HS HI Wc Fc) as [st2 [k2 [l2 [E2 [[Wk [Sk [D1 D2]]] _]]]]]. rewrite K in E2. inversion E2; subst. fold v in Sk, D1, D2.
  set (r := rounded S TowardNegative v) in *.
  destruct (Rle_or_lt (Rabs r) (max_finite S)) as [L|L].
  - destruct (D1 L) as [Fk [Vk _]]. rewrite (greater_bool S x k2 HS Wx Wk Fx Fk), Vk. reflexivity.
  - specialize (D2 L). pose proof (max_finite_pos S HS) as MP. destruct Sk as [S1 [S2 _]].
    assert (SG : (0 < v)%R /\ (max_finite S < r)%R \/ (v < 0)%R /\ (r < - max_finite S)%R).
    { pose proof (rounded_0 S TowardNegative) as R0. destruct (Rtotal_order v 0) as [H|[H|H]].
      - right. split; [exact H|]. assert (r <= 0)%R by (unfold r; rewrite <- R0; apply rounded_mono; [exact HS|lra]). rewrite Rabs_left1 in L by lra. lra.
      - exfalso. unfold r in L. rewrite H, R0, Rabs_R0 in L. lra.
      - left. split; [exact H|]. assert (0 <= r)%R by (unfold r; rewrite <- R0; apply rounded_mono; [exact HS|lra]). rewrite Rabs_pos_eq in L by lra. lra. }
    destruct SG as [[H R]|[H R]].
    + rewrite (S2 H) in D2. cbn [to_infinity negb] in D2. destruct D2 as [_ [Ck Vk]]. rewrite Rlt_bool_false by lra.
      assert (Fk : finite k2) by (left; exact Ck). rewrite (greater_bool S x k2 HS Wx Wk Fx Fk). rewrite Rlt_bool_false; [reflexivity|].
      assert (0 < value S k2)%R by (pose proof (negative_value k2 Wk Ck) as NV; rewrite (S2 H) in NV; exact NV). rewrite Rabs_pos_eq in Vk by lra. lra.
    + rewrite (S1 H) in D2. cbn [to_infinity negb] in D2. rewrite HI in D2. destruct D2 as [_ Ck].
      rewrite Rlt_bool_true by lra. unfold gt_f. rewrite (cmp_infinite x k2 Wx Fx Wk Ck), (S1 H). cbn [bind]. reflexivity.
Qed.
End Widening.
(** ** Comparing an integer with a number *)
Section Integers.
Variable S : Semantics.
Hypothesis HS : sem_ok S.
Lemma cr_ok : forall pol m v zs f, delivers pol S m v zs (OK, f) -> wf S f /\ finite f /\ value S f = v.
Proof.
  intros pol m v zs f [W [_ [D1 D2]]]. split; [exact W|]. destruct (Rle_or_lt (Rabs (rounded S m v)) (max_finite S)) as [L|L].
  - destruct (D1 L) as [F [V [_ [I1 I2]]]]. split; [exact F|]. rewrite V. destruct (Req_dec (rounded S m v) v) as [Q|Q]; [exact Q|exfalso].
    destruct (Rle_or_lt (min_normal S) (Rabs (rounded S m v))) as [H|H]; [discriminate (I1 Q H)|discriminate (I2 Q H)].
  - exfalso. specialize (D2 L). destruct (pol (sign f)); destruct D2 as [D2 _]; discriminate D2.
Qed.
Lemma int_above : forall n m x c w m' st k ex, - 2 ^ 127 <= n < 2 ^ 127 -> from_i128_r S n m = Ret (OK, x) ->
  wf S c -> finite c -> 2 <= w <= 128 -> to_i128_r S c w m' = Ret (st, k, ex) -> st <> INVALID_OP ->
  (m' = TowardPositive -> lt_f x c = Ret (n <? k)) /\ (m' = TowardNegative -> gt_f x c = Ret (k <? n)).
Proof.
  intros n m x c w m' st k ex Hn E Wc Fc Hw K NI.
  destruct (from_i128_r_spec S n m HS Hn) as [[st2 x2] [E2 D]]. rewrite E in E2. inversion E2; subst.
  destruct (cr_ok _ m (IZR n) false x2 D) as [Wx [Fx Vx]].
  assert (H1 : (if sign c then 1 else 2) <= w <= 128) by (destruct (sign c); lia).
  destruct (to_i128_r_spec S c w m' HS Wc H1) as [st' [n' [ex' [E1 [D1 _]]]]]. rewrite K in E1. inversion E1; subst.
  assert (R : rnd_of m' (value S c) = n').
  { unfold converted_to_int in D1. assert (D2 : let k := rnd_of m' (value S c) in (k < - 2 ^ (w - 1) -> st' = INVALID_OP /\ n' = - 2 ^ (w - 1)) /\
      (2 ^ (w - 1) - 1 < k -> st' = INVALID_OP /\ n' = 2 ^ (w - 1) - 1) /\
      (- 2 ^ (w - 1) <= k <= 2 ^ (w - 1) - 1 -> n' = k /\ (IZR k = value S c -> st' = OK) /\ (IZR k <> value S c -> st' = INEXACT)))
      by (destruct Fc as [C|C]; rewrite C in D1; exact D1). cbv zeta in D2. destruct D2 as [A1 [A2 A3]].
    destruct (Z_lt_le_dec (rnd_of m' (value S c)) (- 2 ^ (w - 1))) as [H|H]; [destruct (A1 H); contradiction|].
    destruct (Z_lt_le_dec (2 ^ (w - 1) - 1) (rnd_of m' (value S c))) as [H'|H']; [destruct (A2 H'); contradiction|]. symmetry. apply A3. split; assumption. }
  split; intros ->; cbn [rnd_of] in R.
  - rewrite (less_bool S x2 c HS Wx Wc Fx Fc), Vx. f_equal. destruct (Z.ltb_spec n n') as [L|L].
    + apply Rlt_bool_true. apply Rnot_le_lt. intros H. apply Zceil_glb in H. lia.
    + apply Rlt_bool_false. apply Rle_trans with (IZR n'); [subst n'; apply Zceil_ub|apply IZR_le; exact L].
  - rewrite (greater_bool S x2 c HS Wx Wc Fx Fc), Vx. f_equal. destruct (Z.ltb_spec n' n) as [L|L].
    + apply Rlt_bool_true. apply Rnot_le_lt. intros H. apply Zfloor_lub in H. lia.
    + apply Rlt_bool_false. apply Rle_trans with (IZR n'); [apply IZR_le; exact L|subst n'; apply Zfloor_lb].
Qed.
End Integers.
(** ** As stated *)
Section Stated.
Variables S T : Semantics.
Hypothesis HS : sem_ok S.
Hypothesis HT : sem_ok T.
Hypothesis HC : contains T S.
Definition convertible (x : Float) : Prop := wf S x /\ (category x = Infinity -> NONFINITE_BEHAVIOR T = IEEE754).
Lemma convertible_number : forall x m st X lost, convertible x -> convert_r S T x m = Ret (st, X, lost) -> same_number S T x X.
Proof. intros x m st X lost [W I] E. exact (converted S T HS HT HC x m st X lost W I E). Qed.
Theorem widen_compare : forall x y m m' st X lost st' Y lost', convertible x -> convertible y ->
  convert_r S T x m = Ret (st, X, lost) -> convert_r S T y m' = Ret (st', Y, lost') ->
  partial_cmp X Y = partial_cmp x y.
Proof. intros x y m m' st X lost st' Y lost' Cx Cy Ex Ey. apply (compare_same S T HS HT); eapply convertible_number; eassumption. Qed.
Theorem widen_choice : forall f, f = min \/ f = max \/ f = minimum \/ f = maximum ->
  forall x y m m' st X lost st' Y lost', convertible x -> convertible y ->
  convert_r S T x m = Ret (st, X, lost) -> convert_r S T y m' = Ret (st', Y, lost') ->
  exists b : bool, f x y = Ret (if b then x else y) /\ f X Y = Ret (if b then X else Y).
Proof. intros f K x y m m' st X lost st' Y lost' Cx Cy Ex Ey. apply (choice_same S T HS HT f K); eapply convertible_number; eassumption. Qed.
Theorem widen_to_int : forall x m st X lost, convertible x -> convert_r S T x m = Ret (st, X, lost) ->
  forall w m', (1 <= w <= 128 -> to_u128_r T X w m' = to_u128_r S x w m') /\ (2 <= w <= 128 -> to_i128_r T X w m' = to_i128_r S x w m').
Proof.
  intros x m st X lost Cx Ex w m'. pose proof (convertible_number x m st X lost Cx Ex) as N.
  split; [apply (to_u128_same S T HS HT x X N)|apply (to_i128_same S T HS HT x X N)].
Qed.
Theorem widen_ilogb : forall x m st X lost, convertible x -> convert_r S T x m = Ret (st, X, lost) -> ilogb T X = ilogb S x.
Proof. intros x m st X lost Cx Ex. apply (ilogb_same S T HS HT). eapply convertible_number; eassumption. Qed.
Theorem widen_sign : forall x m st X lost, wf S x -> finite x -> convert_r S T x m = Ret (st, X, lost) ->
  forall m', (exists Y, convert_r S T (neg x) m' = Ret (OK, Y, false) /\ bitwise_eq Y (neg X) = true) /\
    (exists Y, convert_r S T (Ieee.abs x) m' = Ret (OK, Y, false) /\ bitwise_eq Y (Ieee.abs X) = true).
Proof.
  intros x m st X lost Wx Fx Ex m'. pose proof (converted_finite S T HS HT HC x m st X lost Wx Fx Ex) as N. split; apply (bits_same S T HS HT HC).
  - apply neg_same. exact N.
  - exact Fx.
  - apply abs_same. exact N.
  - unfold Ieee.abs. destruct (is_negative x); exact Fx.
Qed.
Theorem widen_integral : forall x m st X lost, wf S x -> finite x -> convert_r S T x m = Ret (st, X, lost) ->
  forall m' m'', exists st' r R Y, round_to_integral S x m' = Ret (st', r) /\ round_to_integral T X m' = Ret (st', R) /\
    convert_r S T r m'' = Ret (OK, Y, false) /\ bitwise_eq Y R = true.
Proof.
  intros x m st X lost Wx Fx Ex m' m''. pose proof (converted_finite S T HS HT HC x m st X lost Wx Fx Ex) as N.
  destruct (integral_same S T HS HT x X N Fx m') as [st' [r [R [E1 [E2 N2]]]]].
  assert (Fr : finite r).
  { destruct (round_to_integral_finite S x m' HS Wx Fx) as [st2 [r2' [E3 [_ [F _]]]]]. rewrite E1 in E3. inversion E3; subst. exact F. }
  destruct (bits_same S T HS HT HC r R N2 Fr m'') as [Y [E4 B]]. exists st', r, R, Y. auto.
Qed.
Theorem widen_constant : NONFINITE_BEHAVIOR S = IEEE754 -> forall x m st X lost c, wf S x -> finite x -> wf T c -> finite c ->
  convert_r S T x m = Ret (st, X, lost) -> forall up down su sd lu ld,
  convert_r T S c TowardPositive = Ret (su, up, lu) -> convert_r T S c TowardNegative = Ret (sd, down, ld) ->
  lt_f X c = lt_f x up /\ gt_f X c = gt_f x down.
Proof.
  intros HI x m st X lost c Wx Fx Wc Fc Ex up down su sd lu ld Eu Ed. pose proof (converted_finite S T HS HT HC x m st X lost Wx Fx Ex) as N.
  split; [eapply (constant_above S T HS HT HI); eassumption|eapply (constant_below S T HS HT HI); eassumption].
Qed.
End Stated.
