(** * PairTotal.v -- operations on pairs return pairs of canonical halves, or panic *)
From Coq Require Import ZArith Reals List Bool Lia Lra.
From Flocq Require Import Core.
From Verif Require Import Machine Sig Ieee Parse Ppc Spec Norm Arith Special Order Formats Int Scale Next Convert Integral Rem Fma Algebra Laws Orderx Total Nans SpecStr StrTop Reach SpecFma FmaFull FmaExact SpecPair Pair PairBase PairOps PairConst PairMore Samples PairSamples PairMulRefute.
Import ListNotations.
Ltac Zify.zify_post_hook ::= idtac.
Local Open Scope Z_scope.

(** ** Outcomes *)
Definition pair_returns (F : Semantics) (o : outcome (Z * DFloat)) : Prop := exists st r, o = Ret (st, r) /\ pair_wf F r.
Definition pair_returns_or_panics (F : Semantics) (o : outcome (Z * DFloat)) : Prop := pair_returns F o \/ o = Panic.

(** the half formats of the pairs of the crate; [DoubleDouble] is the first *)
Section PairTotal.
Variable F : Semantics.
Hypothesis HF : pair_ok F.
Let W := FallbackS F.
Let FO : sem_ok F := F_ok F HF.
Let WO : sem_ok W := W_ok F HF.

Lemma pair_returns_wf : forall o st r, pair_returns F o -> o = Ret (st, r) -> pair_wf F r.
Proof. intros o st r [st' [r' [E Wr]]] E'. rewrite E' in E. injection E as <- <-. exact Wr. Qed.
Lemma either_wf : forall o st r, pair_returns_or_panics F o -> o = Ret (st, r) -> pair_wf F r.
Proof. intros o st r [H|H] E; [exact (pair_returns_wf o st r H E)|congruence]. Qed.

Lemma zero_wf : wf F (ZERO F).
Proof. exact (wf_ZERO F HF). Qed.
Lemma neg_wf : forall x, pair_wf F x -> pair_wf F (dd_neg x).
Proof. intros x H. exact (proj2 (proj2 (proj2 (proj2 (dd_neg_spec F x)))) H). Qed.
Lemma copy_sign_wf : forall x y, pair_wf F x -> pair_wf F (dd_copy_sign x y).
Proof. intros x y H. unfold dd_copy_sign. destruct (xorb _ _); [exact (neg_wf x H)|exact H]. Qed.
Lemma abs_wf : forall x, pair_wf F x -> pair_wf F (dd_abs x).
Proof. intros x H. unfold dd_abs. destruct (dd_is_negative x); [exact (neg_wf x H)|exact H]. Qed.
Lemma nan_wf : pair_wf F (dd_NAN F).
Proof.
  destruct (constants_spec F FO) as [_ [_ [_ [_ [_ [_ [_ [_ [_ [_ [K _]]]]]]]]]]].
  split; [exact K|exact zero_wf].
Qed.

Ltac run :=
  repeat match goal with
  | |- context [add_r F ?a ?b ?m] =>
    let st := fresh "st" in let r := fresh "r" in let E := fresh "E" in let V := fresh "V" in
    destruct (add_r_total F a b FO ltac:(assumption) ltac:(assumption) m) as [st [r [E V]]]; rewrite E; clear E; cbn [bind]
  | |- context [sub_r F ?a ?b ?m] =>
    let st := fresh "st" in let r := fresh "r" in let E := fresh "E" in let V := fresh "V" in
    destruct (sub_r_total F a b FO ltac:(assumption) ltac:(assumption) m) as [st [r [E V]]]; rewrite E; clear E; cbn [bind]
  | |- context [mul_r F ?a ?b ?m] =>
    let st := fresh "st" in let r := fresh "r" in let E := fresh "E" in let V := fresh "V" in
    destruct (mul_r_total F a b FO ltac:(assumption) ltac:(assumption) m) as [st [r [E V]]]; rewrite E; clear E; cbn [bind]
  | |- context [neg ?a] => match goal with H : wf F (neg a) |- _ => fail 1 | _ => assert (wf F (neg a)) by (apply PairBase.wf_neg; assumption) end
  | |- context [if ?b then _ else _] => destruct b eqn:?
  end.
Ltac done_pair := do 2 eexists; split; [reflexivity|]; split; cbn [d0 d1]; first [assumption|exact zero_wf].

Lemma dd_add_normal_total : forall x y m, pair_wf F x -> pair_wf F y -> category (d0 x) = Normal -> category (d0 y) = Normal ->
  pair_returns F (dd_add_normal F x y m).
Proof.
  intros [a aa] [c cc] m [Ha Haa] [Hc Hcc] Ca Cc. cbn [d0 d1] in *. unfold dd_add_normal. cbn [d0 d1].
  rewrite (cmp_abs_normal_spec F a c FO Ha Hc Ca Cc). cbn [bind].
  destruct (Rcompare _ _); run; done_pair.
Qed.

Theorem dd_add_r_total : forall x y m, pair_wf F x -> pair_wf F y -> pair_returns F (dd_add_r F x y m).
Proof.
  intros x y m Hx Hy. unfold dd_add_r, dd_category.
  destruct (category (d0 x)) eqn:Cx, (category (d0 y)) eqn:Cy;
    try (do 2 eexists; split; [reflexivity|assumption]).
  - destruct (xorb _ _); do 2 eexists; (split; [reflexivity|]); [|assumption]. apply copy_sign_wf, nan_wf.
  - apply dd_add_normal_total; assumption.
Qed.
Theorem dd_sub_r_total : forall x y m, pair_wf F x -> pair_wf F y -> pair_returns F (dd_sub_r F x y m).
Proof. intros x y m Hx Hy. apply dd_add_r_total; [exact Hx|exact (neg_wf y Hy)]. Qed.

(** multiplication: everything but the fused step returns *)
Lemma dd_mul_normal_outcome : forall x y m, pair_wf F x -> pair_wf F y -> category (d0 x) = Normal -> category (d0 y) = Normal ->
  pair_returns F (dd_mul_normal F x y m) \/
  (dd_mul_normal F x y m = Panic /\
   exists st t, mul_r F (d0 x) (d0 y) m = Ret (st, t) /\ wf F t /\ finite t /\
     (0 < Rabs (value F (d0 x) * value F (d0 y) - value F t) < fma_unit F)%R /\
     (Rabs (value F (d0 x) * value F (d0 y)) < min_normal F)%R).
Proof.
  intros [a b] [c d] m [Ha Hb] [Hc Hd] Ca Cc. cbn [d0 d1] in *. unfold dd_mul_normal. cbn [d0 d1].
  destruct (mul_r_total F a c FO Ha Hc m) as [st [t [E Ht]]]. rewrite E. cbn [bind].
  destruct (is_finite_non_zero t) eqn:Ft; cbn [negb]; [|left; done_pair].
  pose proof (PairBase.wf_neg F t Ht) as Hnt.
  destruct (mul_add_r_outcome F a c (neg t) m FO Ha Hc Hnt) as [[st2 [tau [E2 Htau]]]|[E2 [Fa [Fc [Ft' B]]]]]; rewrite E2; cbn [bind].
  - left. run; done_pair.
  - right. split; [reflexivity|]. exists st, t. split; [reflexivity|]. split; [exact Ht|].
    rewrite (value_neg F t) in B. split; [unfold finite in *; rewrite category_neg in Ft'; exact Ft'|]. split; [exact B|].
    destruct (Rlt_or_le (Rabs (value F a * value F c)) (min_normal F)) as [L|L]; [exact L|exfalso].
    destruct (mul_add_r_total F a c (neg t) m FO Ha Hc Hnt) as [s3 [r3 [E3 _]]]; [|congruence].
    intros _ _ _. unfold fma_safe. right; right; right; left. exact L.
Qed.
Theorem dd_mul_r_outcome : forall x y m, pair_wf F x -> pair_wf F y ->
  pair_returns F (dd_mul_r F x y m) \/
  (dd_mul_r F x y m = Panic /\ category (d0 x) = Normal /\ category (d0 y) = Normal /\
   (Rabs (value F (d0 x) * value F (d0 y)) < min_normal F)%R /\
   exists st t, mul_r F (d0 x) (d0 y) m = Ret (st, t) /\ finite t /\
     (0 < Rabs (value F (d0 x) * value F (d0 y) - value F t) < bpow radix2 (MIN_EXP F - 2 * PRECISION F))%R).
Proof.
  intros x y m Hx Hy. unfold dd_mul_r, dd_category.
  destruct (category (d0 x)) eqn:Cx, (category (d0 y)) eqn:Cy;
    try (left; do 2 eexists; split; [reflexivity|assumption || exact nan_wf]).
  destruct (dd_mul_normal_outcome x y m Hx Hy Cx Cy) as [H|[E [st [t [E1 [_ [Ft [B L]]]]]]]]; [left; exact H|right].
  split; [exact E|]. do 2 (split; [reflexivity|]). split; [exact L|]. exists st, t. split; [exact E1|]. split; [exact Ft|exact B].
Qed.
Theorem dd_mul_r_panics : forall x y m, pair_wf F x -> pair_wf F y ->
  (dd_mul_r F x y m = Panic <->
   category (d0 x) = Normal /\ category (d0 y) = Normal /\
   (Rabs (value F (d0 x) * value F (d0 y)) < min_normal F)%R /\
   exists st t, mul_r F (d0 x) (d0 y) m = Ret (st, t) /\ finite t /\ value F t <> 0%R /\
     Rabs (value F t) = cut_down F (Rabs (value F (d0 x) * value F (d0 y))) /\
     Rabs (value F t) <> Rabs (value F (d0 x) * value F (d0 y))).
Proof.
  intros x y m Hx Hy.
  assert (Sg : forall a c st t, wf F a -> wf F c -> finite a -> finite c -> mul_r F a c m = Ret (st, t) -> value F (neg t) <> 0%R -> (value F a * value F c <> 0)%R ->
    xorb (sign a) (sign c) <> sign (neg t)).
  { intros a c st t Ha Hc Fa Fc E N Np. destruct (mul_r_crate F a c m FO Ha Hc Fa Fc) as [[st' t'] [E' C]]. rewrite E in E'.
    assert (t' = t) as -> by congruence. destruct C as [_ [[S1 [S2 _]] _]].
    change (sign (neg t)) with (negb (sign t)). pose proof (value_sign_nonneg F a Ha Fa) as Va. pose proof (value_sign_nonneg F c Hc Fc) as Vc.
    destruct (Rtotal_order (value F a * value F c) 0) as [L|[L|L]]; [rewrite (S1 L)|contradiction|rewrite (S2 L)];
      destruct (sign a), (sign c); cbn; try discriminate; exfalso; nra. }
  split.
  - intro E. destruct (dd_mul_r_outcome x y m Hx Hy) as [[st [r [E' _]]]|[_ [Cx [Cy [L _]]]]]; [congruence|].
    split; [exact Cx|]. split; [exact Cy|]. split; [exact L|].
    unfold dd_mul_r, dd_category in E. rewrite Cx, Cy in E.
    destruct x as [a b], y as [c d], Hx as [Ha Hb], Hy as [Hc Hd]. cbn [d0 d1] in *. unfold dd_mul_normal in E. cbn [d0 d1] in E.
    destruct (mul_r_total F a c FO Ha Hc m) as [st [t [E1 Ht]]]. rewrite E1 in E. cbn [bind] in E. exists st, t. split; [exact E1|].
    destruct (is_finite_non_zero t) eqn:Ft; cbn [negb] in E; [|discriminate E].
    pose proof (PairBase.wf_neg F t Ht) as Hnt.
    assert (E2 : mul_add_r F a c (neg t) m = Panic).
    { destruct (mul_add_r_outcome F a c (neg t) m FO Ha Hc Hnt) as [[st2 [tau [E2 Htau]]]|[E2 _]]; [exfalso|exact E2].
      rewrite E2 in E. cbn [bind] in E. revert E. 
      match goal with |- ?o = Panic -> False => assert (Q : pair_returns F o); [run; done_pair|intro E; destruct Q as [? [? [Q _]]]; congruence] end. }
    apply (mul_add_r_panics F FO) in E2; [|assumption..]. destruct E2 as [Fa [Fc [Fn [[_ [N [_ [_ Q]]]] K]]]].
    rewrite (value_neg F t), Rabs_Ropp in K. rewrite (value_neg F t) in N. split; [unfold finite in *; rewrite category_neg in Fn; exact Fn|].
    split; [intro Z; apply N; rewrite Z; ring|]. split; [symmetry; exact K|congruence].
  - intros [Cx [Cy [L [st [t [E1 [Ft [N [K Q]]]]]]]]]. unfold dd_mul_r, dd_category. rewrite Cx, Cy.
    destruct x as [a b], y as [c d], Hx as [Ha Hb], Hy as [Hc Hd]. cbn [d0 d1] in *. unfold dd_mul_normal. cbn [d0 d1]. rewrite E1. cbn [bind].
    assert (Ht : wf F t) by (destruct (mul_r_total F a c FO Ha Hc m) as [st' [t' [E' Ht]]]; assert (t' = t) as <- by congruence; exact Ht).
    assert (Ct : category t = Normal) by (destruct Ft as [C|C]; [exact C|exfalso; apply N, value_zero, C]).
    assert (is_finite_non_zero t = true) as -> by (unfold is_finite_non_zero, is_finite, is_nan, is_infinite, is_zero; rewrite Ct; reflexivity). cbn [negb].
    assert (Np : (value F a * value F c <> 0)%R).
    { intro Z. rewrite Z, Rabs_R0 in *. apply N. replace 0%R with (IZR 0 * fma_unit F)%R in K by ring. rewrite cut_down_multiple in K. rewrite Rmult_0_l in K.
      apply Rabs_eq_R0. exact K. }
    assert (mul_add_r F a c (neg t) m = Panic) as ->; [|reflexivity].
    apply (mul_add_r_panics F FO); [assumption|assumption|apply PairBase.wf_neg; exact Ht|].
    assert (Fa : finite a) by (left; exact Cx). assert (Fc : finite c) by (left; exact Cy).
    assert (Nn : value F (neg t) <> 0%R) by (rewrite (value_neg F t); lra).
    rewrite (value_neg F t), Rabs_Ropp. split; [exact Fa|]. split; [exact Fc|]. split; [unfold finite; rewrite category_neg; exact Ft|]. split; [|symmetry; exact K].
    split; [apply (Sg a c st t); assumption|]. split; [exact Nn|]. rewrite (value_neg F t), Rabs_Ropp. split; [|split; [exact L|congruence]].
    rewrite K. apply Rle_lt_trans with (2 := L). unfold cut_down. pose proof (Zfloor_lb (Rabs (value F a * value F c) / fma_unit F)) as Fl.
    pose proof (bpow_gt_0 r2 (MIN_EXP F - 2 * PRECISION F)) as U. fold (fma_unit F) in U.
    apply Rle_trans with (Rabs (value F a * value F c) / fma_unit F * fma_unit F)%R; [apply Rmult_le_compat_r; lra|]. apply Req_le. field. lra.
Qed.
Theorem dd_mul_r_total : forall x y m, pair_wf F x -> pair_wf F y ->
  (category (d0 x) = Normal -> category (d0 y) = Normal -> min_normal F <= Rabs (value F (d0 x) * value F (d0 y)))%R ->
  pair_returns F (dd_mul_r F x y m).
Proof.
  intros x y m Hx Hy L. destruct (dd_mul_r_outcome x y m Hx Hy) as [H|[_ [Cx [Cy [B _]]]]]; [exact H|].
  specialize (L Cx Cy). exfalso. lra.
Qed.

(** ** The operations that go through the double-width format *)
Lemma split_wf : forall f r, split_of F f r -> pair_wf F r.
Proof.
  intros f r [_ H]. destruct (category f).
  - destruct H as [[A _] [B _]]. split; assumption.
  - destruct H as [[A _] [[B _] _]]. split; assumption.
  - exact (proj1 (proj1 H)).
  - exact (proj1 (proj1 H)).
Qed.
Lemma splittable_dec : forall f, splittable F f \/ ~ splittable F f.
Proof.
  intro f. unfold splittable. destruct (category f); [left; exact I|destruct (signaling _ f); [right; discriminate|left; reflexivity]| |];
    (destruct (Rle_dec (Rabs (rounded F NearestTiesToEven (value (FallbackS F) f))) (max_finite F)); [left|right]; assumption).
Qed.
Lemma from_fallback_outcome : forall f, wf W f ->
  (exists r, from_fallback F f = Ret r /\ pair_wf F r) \/ from_fallback F f = Panic.
Proof.
  intros f Hf. destruct (from_fallback_spec F HF f Hf) as [A B]. destruct (splittable_dec f) as [Q|Q].
  - destruct (A Q) as [r [E S]]. left. exists r. split; [exact E|exact (split_wf f r S)].
  - right. exact (B Q).
Qed.
Lemma map_outcome : forall o, returns W o -> pair_returns_or_panics F (map_from_fallback F o).
Proof.
  intros o [st [f [-> Hf]]]. unfold map_from_fallback. cbn [bind].
  destruct (from_fallback_outcome f Hf) as [[r [-> Hr]]| ->]; cbn [bind]; [left|right; reflexivity].
  exists st, r. split; [reflexivity|exact Hr].
Qed.

(** a pair without a double-width counterpart: its high half, or the low half
    of a number, is a signaling NaN *)
Definition unreadable (x : DFloat) : Prop :=
  (category (d0 x) = NaN /\ signaling F (d0 x) = true) \/
  (category (d0 x) = Normal /\ category (d1 x) = NaN /\ signaling F (d1 x) = true).

Lemma widen_half : forall x, wf F x -> category x = NaN /\ signaling F x = true \/
  exists w, convert_r F W x NearestTiesToEven = Ret (OK, w, false) /\ wf W w /\ category w = category x /\ sign w = sign x.
Proof.
  intros x H. destruct (category x) eqn:C.
  - right. destruct (convert_r_infinite F W x NearestTiesToEven WO C) as [a [E [Ha [Ca Sa]]]].
    exists a. split; [exact E|]. split; [exact Ha|]. split; [exact Ca|exact Sa].
  - destruct (signaling F x) eqn:Sg; [left; split; reflexivity|right].
    pose proof (to_fallback_nan F HF (mkDF x x) H C) as T. cbn [d0] in T. rewrite Sg in T.
    destruct T as [w [E [[Hw [Cw _]] [Sw _]]]]. unfold to_fallback in E. cbn [d0] in E.
    destruct (convert_r_total F W x NearestTiesToEven FO WO H) as [st [r [lost [E' Hr]]]].
    change (FallbackS F) with W in E. rewrite E' in E. cbn [bind] in E.
    unfold assertb in E. destruct ((st =? OK) && negb lost) eqn:O; [|discriminate E].
    apply andb_prop in O. destruct O as [O1 O2]. apply Z.eqb_eq in O1. destruct lost; [discriminate O2|]. subst st.
    destruct (convert_r_nan F W x NearestTiesToEven FO WO H C) as [a [lost [Ea [[_ [Ca _]] [Sa _]]]]].
    exists r. split; [exact E'|]. split; [exact Hr|]. rewrite E' in Ea. 
    assert (r = a) as -> by congruence. split; assumption.
  - right. assert (Fx : finite x) by (unfold finite; rewrite C; left; reflexivity).
    destruct (convert_exact F W x NearestTiesToEven FO WO eq_refl H Fx (contains_representable F W _ FO WO (W_contains_F F HF) (finite_representable F x FO H Fx)))
      as [w [E [Hw [Fw [Vw Sw]]]]]. exists w. split; [exact E|]. split; [exact Hw|]. split; [|exact Sw].
    destruct (category w) eqn:Cw; try reflexivity; try (unfold finite in Fw; rewrite Cw in Fw; destruct Fw; discriminate || contradiction).
    exfalso. rewrite (value_zero W w Cw) in Vw. apply (normal_nonzero F x H C). symmetry. exact Vw.
  - right. assert (Fx : finite x) by (unfold finite; rewrite C; right; reflexivity).
    destruct (convert_exact F W x NearestTiesToEven FO WO eq_refl H Fx (contains_representable F W _ FO WO (W_contains_F F HF) (finite_representable F x FO H Fx)))
      as [w [E [Hw [Fw [Vw Sw]]]]]. exists w. split; [exact E|]. split; [exact Hw|]. split; [|exact Sw].
    rewrite (value_zero F x C) in Vw. destruct Fw as [Cw|Cw]; [exfalso; exact (normal_nonzero W w Hw Cw Vw)|exact Cw].
Qed.

Lemma signaling_dec : forall b, (category b = NaN /\ signaling F b = true) \/ ~ (category b = NaN /\ signaling F b = true).
Proof. intro b. destruct (category b); try (right; intros [Q _]; discriminate Q). destruct (signaling F b); [left; split; reflexivity|right; intros [_ Q]; discriminate Q]. Qed.
Theorem to_fallback_outcome : forall x, pair_wf F x ->
  (~ unreadable x /\ exists w, to_fallback F x = Ret w /\ wf W w) \/ (unreadable x /\ to_fallback F x = Panic).
Proof.
  intros [a b] [Ha Hb]. cbn [d0 d1] in *. unfold unreadable. cbn [d0 d1].
  unfold to_fallback. cbn [d0 d1]. change (FallbackS F) with W.
  destruct (widen_half a Ha) as [[Ca Sa]|[w [E [Hw [Cw Sw]]]]].
  { right. split; [left; split; assumption|].
    pose proof (to_fallback_nan F HF (mkDF a b) Ha Ca) as T. cbn [d0] in T. rewrite Sa in T. exact T. }
  rewrite E. cbn [bind]. change (OK =? OK) with true. cbn [negb andb assertb]. rewrite is_finite_non_zero_spec, Cw.
  assert (NS : ~ (category a = NaN /\ signaling F a = true)).
  { intros [Ca Sa]. pose proof (to_fallback_nan F HF (mkDF a b) Ha Ca) as T. cbn [d0] in T. rewrite Sa in T.
    unfold to_fallback in T. cbn [d0 d1] in T. change (FallbackS F) with W in T. rewrite E in T. cbn [bind] in T.
    change (OK =? OK) with true in T. cbn [negb andb assertb] in T. rewrite is_finite_non_zero_spec, Cw, Ca in T. discriminate T. }
  destruct (category_eqb (category a) Normal) eqn:Ca.
  - assert (Na : category a = Normal) by (destruct (category a); try discriminate Ca; reflexivity).
    destruct (signaling_dec b) as [[Cb Sb]|Nb].
    + right. split; [right; split; [exact Na|split; assumption]|].
      pose proof (to_fallback_nan F HF (mkDF b b) Hb Cb) as T. cbn [d0] in T. rewrite Sb in T.
      unfold to_fallback in T. cbn [d0 d1] in T. change (FallbackS F) with W in T.
      destruct (convert_r_nan F W b NearestTiesToEven FO WO Hb Cb) as [c [lost [Ec [[_ [Cc _]] _]]]]. rewrite Ec in T |- *. cbn [bind] in T |- *.
      unfold assertb in T |- *. destruct ((_ =? OK) && negb lost); [|reflexivity].
      rewrite is_finite_non_zero_spec, Cc in T. discriminate T.
    + left. split; [tauto|]. destruct (widen_half b Hb) as [Q|[c [Ec [Hc _]]]]; [contradiction|].
      rewrite Ec. cbn [bind]. change (OK =? OK) with true. cbn [negb andb assertb].
      destruct (add_r_total W w c WO Hw Hc NearestTiesToEven) as [st [r [Er Hr]]]. rewrite Er. cbn [bind].
      exists r. split; [reflexivity|exact Hr].
  - left. split.
    + intros [Q|[Q _]]; [exact (NS Q)|]. rewrite Q in Ca. discriminate Ca.
    + exists w. split; [reflexivity|exact Hw].
Qed.

(** one, two and three operands *)
Lemma wide1 : forall (op : Float -> outcome (Z * Float)) x, (forall w, wf W w -> returns W (op w)) -> pair_wf F x ->
  pair_returns_or_panics F (let! x := to_fallback F x in map_from_fallback F (op x)).
Proof.
  intros op x Hop Hx. destruct (to_fallback_outcome x Hx) as [[_ [w [-> Hw]]]|[_ ->]]; cbn [bind]; [|right; reflexivity].
  apply map_outcome, Hop, Hw.
Qed.
Lemma wide2 : forall (op : Float -> Float -> outcome (Z * Float)) x y, (forall w v, wf W w -> wf W v -> returns W (op w v)) ->
  pair_wf F x -> pair_wf F y ->
  pair_returns_or_panics F (let! x := to_fallback F x in let! y := to_fallback F y in map_from_fallback F (op x y)).
Proof.
  intros op x y Hop Hx Hy. destruct (to_fallback_outcome x Hx) as [[_ [w [-> Hw]]]|[_ ->]]; cbn [bind]; [|right; reflexivity].
  exact (wide1 (op w) y (fun v => Hop w v Hw) Hy).
Qed.

Theorem wide_operations_outcome : forall x y m, pair_wf F x -> pair_wf F y ->
  pair_returns_or_panics F (dd_div_r F x y m) /\ pair_returns_or_panics F (dd_ieee_rem F x y) /\
  pair_returns_or_panics F (dd_c_fmod F x y) /\ pair_returns_or_panics F (dd_round_to_integral F x m) /\
  pair_returns_or_panics F (dd_next_up F x) /\ pair_returns_or_panics F (dd_next_down F x).
Proof.
  intros x y m Hx Hy.
  split; [apply (wide2 (fun a b => div_r W a b m)); [intros; apply div_r_total|..]; assumption|].
  split; [apply (wide2 (ieee_rem W)); [intros; apply ieee_rem_total|..]; assumption|].
  split; [apply (wide2 (c_fmod W)); [intros; apply c_fmod_total|..]; assumption|].
  split; [apply (wide1 (fun a => round_to_integral W a m)); [intros; apply round_to_integral_total|]; assumption|].
  split; [apply (wide1 (next_up W)); [intros; apply next_up_total|]; assumption|].
  unfold dd_next_down. pose proof (neg_wf x Hx) as Hn.
  assert (U : pair_returns_or_panics F (dd_next_up F (dd_neg x)))
    by (apply (wide1 (next_up W)); [intros; apply next_up_total|]; assumption).
  destruct U as [[st [r [-> Hr]]]| ->]; cbn [bind]; [left|right; reflexivity].
  exists st, (dd_neg r). split; [reflexivity|exact (neg_wf r Hr)].
Qed.
Theorem dd_mul_add_r_outcome : forall x y z m, pair_wf F x -> pair_wf F y -> pair_wf F z ->
  pair_returns_or_panics F (dd_mul_add_r F x y z m).
Proof.
  intros x y z m Hx Hy Hz. unfold dd_mul_add_r.
  destruct (to_fallback_outcome x Hx) as [[_ [a [-> Ha]]]|[_ ->]]; cbn [bind]; [|right; reflexivity].
  destruct (to_fallback_outcome y Hy) as [[_ [b [-> Hb]]]|[_ ->]]; cbn [bind]; [|right; reflexivity].
  destruct (to_fallback_outcome z Hz) as [[_ [c [-> Hc]]]|[_ ->]]; cbn [bind]; [|right; reflexivity].
  change (FallbackS F) with W.
  destruct (mul_add_r_outcome W a b c m WO Ha Hb Hc) as [[st [f [E Hf]]]|[E _]].
  - apply map_outcome. exists st, f. split; assumption.
  - rewrite E. right. reflexivity.
Qed.
Theorem dd_get_exact_inverse_outcome : forall x, pair_wf F x ->
  (exists o, dd_get_exact_inverse F x = Ret o /\ forall r, o = Some r -> pair_wf F r) \/ dd_get_exact_inverse F x = Panic.
Proof.
  intros x Hx. unfold dd_get_exact_inverse.
  destruct (to_fallback_outcome x Hx) as [[_ [a [-> Ha]]]|[_ ->]]; cbn [bind]; [|right; reflexivity].
  destruct (get_exact_inverse_total W a WO Ha) as [o [E Ho]]. change (FallbackS F) with W. rewrite E. cbn [bind].
  destruct o as [f|].
  - destruct (from_fallback_outcome f (Ho f eq_refl)) as [[r [-> Hr]]| ->]; cbn [bind]; [left|right; reflexivity].
    exists (Some r). split; [reflexivity|]. intros r' [= <-]. exact Hr.
  - left. exists None. split; [reflexivity|discriminate].
Qed.
Theorem dd_from_int_total : forall m,
  (forall n, 0 <= n < 2 ^ 128 -> pair_returns_or_panics F (dd_from_u128_r F n m)) /\
  (forall n, - 2 ^ 127 <= n < 2 ^ 127 -> pair_returns_or_panics F (dd_from_i128_r F n m)).
Proof.
  assert (U : forall m n, 0 <= n < 2 ^ 128 -> pair_returns_or_panics F (dd_from_u128_r F n m)).
  { intros m n Hn. apply map_outcome. destruct (from_u128_r_spec W n m WO Hn) as [[st f] [E [Wf _]]].
    exists st, f. split; [exact E|exact Wf]. }
  intro m. split; [exact (U m)|]. intros n Hn. unfold dd_from_i128_r. destruct (n <? 0) eqn:N.
  - apply Z.ltb_lt in N.
    assert (B : 0 <= wrap128 (- n) < 2 ^ 128) by (unfold wrap128, LIMB_MOD; apply Z.mod_pos_bound; reflexivity).
    destruct (U (round_neg m) _ B) as [[st [r [-> Hr]]]| ->]; cbn [bind]; [left|right; reflexivity].
    exists st, (dd_neg r). split; [reflexivity|exact (neg_wf r Hr)].
  - apply Z.ltb_ge in N. apply U. split; [exact N|]. eapply Z.lt_trans; [exact (proj2 Hn)|reflexivity].
Qed.
Theorem dd_halves_total : forall x m, pair_wf F x ->
  (forall n, exists r, dd_scalbn_r F x n m = Ret r /\ pair_wf F r) /\
  (exists r e, dd_frexp_r F x m = Ret (r, e) /\ pair_wf F r) /\
  (exists e, dd_ilogb F x = Ret e).
Proof.
  intros [a b] m [Ha Hb]. cbn [d0 d1] in *. split; [|split].
  - intro n. unfold dd_scalbn_r. cbn [d0 d1].
    destruct (scalbn_r_total F a FO Ha n m) as [a' [-> Ha']]. destruct (scalbn_r_total F b FO Hb n m) as [b' [-> Hb']].
    exists (mkDF a' b'). split; [reflexivity|split; assumption].
  - unfold dd_frexp_r, dd_category. cbn [d0 d1]. destruct (frexp_r_total F a FO Ha m) as [a' [e [E Ha']]]. rewrite E. cbn [bind].
    destruct (category_eqb (category a) Normal) eqn:C.
    + assert (Ca : category a = Normal) by (destruct (category a); reflexivity || discriminate C).
      destruct (dd_frexp_r_normal F HF (mkDF a (ZERO F)) m (conj Ha zero_wf) Ca (or_intror eq_refl)) as [r [e' [st [E' _]]]].
      unfold dd_frexp_r, dd_category in E'. cbn [d0 d1] in E'. rewrite E, C in E'. cbn [bind] in E'.
      unfold chk32 in E' |- *. destruct ((I32_MIN <=? - e) && (- e <=? I32_MAX)); [|discriminate E']. cbn [bind].
      destruct (scalbn_r_total F b FO Hb (- e) m) as [b' [-> Hb']]. cbn [bind].
      exists (mkDF a' b'), e. split; [reflexivity|split; assumption].
    + cbn [bind]. exists (mkDF a' b), e. split; [reflexivity|split; assumption].
  - exact (ilogb_total F a FO Ha).
Qed.

(** predicates and orders: no panic *)
Lemma half_cmp : forall a b, wf F a -> wf F b -> exists c, partial_cmp a b = Ret c.
Proof. intros a b Ha Hb. destruct (partial_cmp_spec F a b FO Ha Hb) as [c [E _]]. exists c. exact E. Qed.
Lemma dd_cmp_defined : forall x y, pair_wf F x -> pair_wf F y -> defined (dd_partial_cmp x y).
Proof.
  intros [a b] [c d] [Ha Hb] [Hc Hd]. unfold defined, dd_partial_cmp. cbn [d0 d1] in *.
  destruct (half_cmp a c Ha Hc) as [k ->], (half_cmp b d Hb Hd) as [k' ->]. cbn [bind].
  destruct k as [[]|]; eexists; reflexivity.
Qed.
Theorem dd_order_defined : forall x y, pair_wf F x -> pair_wf F y ->
  defined (dd_partial_cmp x y) /\ defined (dd_lt x y) /\ defined (dd_eq x y) /\
  defined (dd_min x y) /\ defined (dd_max x y) /\ defined (dd_minimum x y) /\ defined (dd_maximum x y) /\
  defined (dd_is_denormal F x) /\ defined (dd_is_integer F x).
Proof.
  intros x y Hx Hy. pose proof (dd_cmp_defined x y Hx Hy) as [c C]. pose proof (dd_cmp_defined y x Hy Hx) as [c' C'].
  assert (L : defined (dd_lt x y)) by (unfold dd_lt, defined; rewrite C; eexists; reflexivity).
  assert (L' : defined (dd_lt y x)) by (unfold dd_lt, defined; rewrite C'; eexists; reflexivity).
  destruct x as [a b], y as [e d], Hx as [Ha Hb], Hy as [He Hd]. cbn [d0 d1] in *.
  destruct L as [l L], L' as [l' L'].
  split; [exists c; exact C|]. split; [exists l; exact L|].
  split.
  { unfold defined, dd_eq, eq_f. cbn [d0 d1]. destruct (half_cmp a e Ha He) as [k ->], (half_cmp b d Hb Hd) as [k' ->]. cbn [bind].
    destruct k as [[]|]; eexists; reflexivity. }
  unfold defined, dd_min, dd_max, dd_minimum, dd_maximum. rewrite L, L'. cbn [bind].
  repeat match goal with |- context [if ?b then _ else _] => destruct b end; (repeat (split; [eexists; reflexivity|]); split).
  all: try (unfold dd_is_denormal; cbn [d0 d1]; destruct (classification F a FO Ha) as [dn [n [-> _]]]; cbn [bind];
    destruct (add_r_total F a b FO Ha Hb NearestTiesToEven) as [st [r [-> Hr]]]; cbn [bind];
    unfold eq_f; destruct (half_cmp a r Ha Hr) as [k ->]; cbn [bind];
    destruct (category_eqb _ _), dn; eexists; reflexivity).
  all: unfold dd_is_integer; cbn [d0 d1]; destruct (is_integer_spec F a FO Ha) as [i [-> _]], (is_integer_spec F b FO Hb) as [j [-> _]]; cbn [bind];
    destruct i; eexists; reflexivity.
Qed.
Theorem dd_to_u128_r_outcome : forall x w m, pair_wf F x -> 1 <= w <= 128 ->
  (~ unreadable x /\ defined (dd_to_u128_r F x w m)) \/ (unreadable x /\ dd_to_u128_r F x w m = Panic).
Proof.
  intros x w m Hx Hw. unfold dd_to_u128_r. destruct (to_fallback_outcome x Hx) as [[N [f [-> Hf]]]|[N ->]]; cbn [bind]; [left|right; split; [exact N|reflexivity]].
  split; [exact N|]. destruct (to_u128_r_spec W f w m WO Hf Hw) as [st [n [ex [E _]]]]. eexists. exact E.
Qed.
Theorem unreadable_panics : forall x y z m, pair_wf F x -> unreadable x ->
  dd_div_r F x y m = Panic /\ dd_ieee_rem F x y = Panic /\ dd_c_fmod F x y = Panic /\ dd_mul_add_r F x y z m = Panic /\
  dd_round_to_integral F x m = Panic /\ dd_next_up F x = Panic /\ dd_get_exact_inverse F x = Panic.
Proof.
  intros x y z m Hx U. unfold dd_div_r, dd_ieee_rem, dd_c_fmod, dd_mul_add_r, dd_round_to_integral, dd_next_up, dd_get_exact_inverse.
  destruct (to_fallback_outcome x Hx) as [[N _]|[_ ->]]; [contradiction|]. repeat split.
Qed.
End PairTotal.

(** ** Pairs obtained from the interface of [DoubleDouble]

    [pair_reachable x]: [x] is the result of a finite sequence of operations of
    the interface; every constructor is one value-producing operation. *)
Inductive pair_reachable : DFloat -> Prop :=
| pr_zero : pair_reachable (dd_ZERO DoubleS)
| pr_infinity : pair_reachable (dd_INFINITY DoubleS)
| pr_nan : pair_reachable (dd_NAN DoubleS)
| pr_qnan pl : payload_ok pl -> pair_reachable (dd_qnan DoubleS pl)
| pr_snan pl : payload_ok pl -> pair_reachable (dd_snan DoubleS pl)
| pr_largest x : dd_largest DoubleS = Ret x -> pair_reachable x
| pr_smallest : pair_reachable (dd_SMALLEST DoubleS)
| pr_smallest_normalized x : dd_smallest_normalized DoubleS = Ret x -> pair_reachable x
| pr_from_bits b x : 0 <= b < 2 ^ 128 -> dd_from_bits DoubleS b = Ret x -> pair_reachable x
| pr_from_u128 n m st x : 0 <= n < 2 ^ 128 -> dd_from_u128_r DoubleS n m = Ret (st, x) -> pair_reachable x
| pr_from_i128 n m st x : - 2 ^ 127 <= n < 2 ^ 127 -> dd_from_i128_r DoubleS n m = Ret (st, x) -> pair_reachable x
| pr_from_str s m st x : len s < 2 ^ 25 -> dd_from_str_r DoubleS s m = Ret (Ok (st, x)) -> pair_reachable x
| pr_neg x : pair_reachable x -> pair_reachable (dd_neg x)
| pr_abs x : pair_reachable x -> pair_reachable (dd_abs x)
| pr_copy_sign x y : pair_reachable x -> pair_reachable y -> pair_reachable (dd_copy_sign x y)
| pr_add x y m st r : pair_reachable x -> pair_reachable y -> dd_add_r DoubleS x y m = Ret (st, r) -> pair_reachable r
| pr_sub x y m st r : pair_reachable x -> pair_reachable y -> dd_sub_r DoubleS x y m = Ret (st, r) -> pair_reachable r
| pr_mul x y m st r : pair_reachable x -> pair_reachable y -> dd_mul_r DoubleS x y m = Ret (st, r) -> pair_reachable r
| pr_div x y m st r : pair_reachable x -> pair_reachable y -> dd_div_r DoubleS x y m = Ret (st, r) -> pair_reachable r
| pr_mul_add x y z m st r : pair_reachable x -> pair_reachable y -> pair_reachable z ->
    dd_mul_add_r DoubleS x y z m = Ret (st, r) -> pair_reachable r
| pr_ieee_rem x y st r : pair_reachable x -> pair_reachable y -> dd_ieee_rem DoubleS x y = Ret (st, r) -> pair_reachable r
| pr_c_fmod x y st r : pair_reachable x -> pair_reachable y -> dd_c_fmod DoubleS x y = Ret (st, r) -> pair_reachable r
| pr_round_to_integral x m st r : pair_reachable x -> dd_round_to_integral DoubleS x m = Ret (st, r) -> pair_reachable r
| pr_next_up x st r : pair_reachable x -> dd_next_up DoubleS x = Ret (st, r) -> pair_reachable r
| pr_next_down x st r : pair_reachable x -> dd_next_down DoubleS x = Ret (st, r) -> pair_reachable r
| pr_scalbn x n m r : pair_reachable x -> i32 n -> dd_scalbn_r DoubleS x n m = Ret r -> pair_reachable r
| pr_frexp x m r e : pair_reachable x -> dd_frexp_r DoubleS x m = Ret (r, e) -> pair_reachable r
| pr_inverse x r : pair_reachable x -> dd_get_exact_inverse DoubleS x = Ret (Some r) -> pair_reachable r
| pr_min x y r : pair_reachable x -> pair_reachable y -> dd_min x y = Ret r -> pair_reachable r
| pr_max x y r : pair_reachable x -> pair_reachable y -> dd_max x y = Ret r -> pair_reachable r
| pr_minimum x y r : pair_reachable x -> pair_reachable y -> dd_minimum x y = Ret r -> pair_reachable r
| pr_maximum x y r : pair_reachable x -> pair_reachable y -> dd_maximum x y = Ret r -> pair_reachable r.

Lemma choice_wf : forall (x y r : DFloat) (o : outcome bool) (f : bool -> DFloat), pair_wf DoubleS x -> pair_wf DoubleS y ->
  (forall b, f b = x \/ f b = y) -> (let! b := o in Ret (f b)) = Ret r -> pair_wf DoubleS r.
Proof.
  intros x y r o f Hx Hy Hf E. destruct o as [b| |]; try discriminate E. cbn [bind] in E. injection E as <-.
  destruct (Hf b) as [-> | ->]; assumption.
Qed.
Ltac choose_operand x y := repeat match goal with
  | H : Ret _ = Ret _ |- _ => injection H as <-
  | H : context [if dd_is_nan ?z then _ else _] |- _ => destruct (dd_is_nan z)
  | H : context [if dd_is_zero ?z && ?c && ?d then _ else _] |- _ => destruct (dd_is_zero z && c && d)
  | H : bind _ _ = Ret _ |- _ => refine (choice_wf x y _ _ _ _ _ _ H); [assumption|assumption|intros []; tauto]
  | |- context [if ?b then _ else _] => destruct b
  end; try assumption.

Theorem pair_reachable_wf : forall x, pair_reachable x -> pair_wf DoubleS x.
Proof.
  pose proof double_pair as HF. intros x H. induction H.
  - exact (proj1 (proj1 (dd_zero_spec DoubleS HF))).
  - exact (proj1 (proj1 (dd_infinity_spec DoubleS HF))).
  - exact (nan_wf DoubleS HF).
  - exact (proj1 (proj1 (proj1 (proj2 (dd_nan_spec DoubleS HF pl H))))).
  - exact (proj1 (proj1 (proj2 (proj2 (dd_nan_spec DoubleS HF pl H))))).
  - destruct (dd_largest_spec DoubleS HF) as [x' [E [C _]]]. assert (x = x') as -> by congruence. exact (proj1 C).
  - exact (proj1 (proj1 (dd_smallest_spec DoubleS HF))).
  - destruct (dd_smallest_normalized_spec DoubleS HF) as [x' [E [C _]]]. assert (x = x') as -> by congruence. exact (proj1 C).
  - destruct (dd_bits_round_trip b H) as [x' [E [C _]]]. assert (x = x') as -> by congruence. exact C.
  - exact (either_wf _ _ _ _ (proj1 (dd_from_int_total DoubleS HF m) n H) H0).
  - exact (either_wf _ _ _ _ (proj2 (dd_from_int_total DoubleS HF m) n H) H0).
  - unfold dd_from_str_r in H0.
    assert (CF : In (FallbackS DoubleS) crate_formats) by (do 8 right; left; reflexivity).
    destruct (from_str_total (FallbackS DoubleS) s m (crate_formats_ok _ CF) (crate_dec_ok _ CF) H) as [[st' [f [E [Wf _]]]]|[e E]];
      rewrite E in H0; cbn [bind rbind] in H0; [|discriminate H0].
    destruct (from_fallback_outcome DoubleS HF f Wf) as [[r [Er Wr]]|Er]; rewrite Er in H0; cbn [bind] in H0; [|discriminate H0].
    assert (x = r) as -> by congruence. exact Wr.
  - exact (neg_wf DoubleS x IHpair_reachable).
  - exact (abs_wf DoubleS x IHpair_reachable).
  - exact (copy_sign_wf DoubleS x y IHpair_reachable1).
  - exact (pair_returns_wf _ _ _ _ (dd_add_r_total DoubleS HF x y m IHpair_reachable1 IHpair_reachable2) H1).
  - exact (pair_returns_wf _ _ _ _ (dd_sub_r_total DoubleS HF x y m IHpair_reachable1 IHpair_reachable2) H1).
  - destruct (dd_mul_r_outcome DoubleS HF x y m IHpair_reachable1 IHpair_reachable2) as [Q|[Q _]]; [exact (pair_returns_wf _ _ _ _ Q H1)|congruence].
  - exact (either_wf _ _ _ _ (proj1 (wide_operations_outcome DoubleS HF x y m IHpair_reachable1 IHpair_reachable2)) H1).
  - exact (either_wf _ _ _ _ (dd_mul_add_r_outcome DoubleS HF x y z m IHpair_reachable1 IHpair_reachable2 IHpair_reachable3) H2).
  - destruct (wide_operations_outcome DoubleS HF x y NearestTiesToEven IHpair_reachable1 IHpair_reachable2) as [_ [Q _]]. exact (either_wf _ _ _ _ Q H1).
  - destruct (wide_operations_outcome DoubleS HF x y NearestTiesToEven IHpair_reachable1 IHpair_reachable2) as [_ [_ [Q _]]]. exact (either_wf _ _ _ _ Q H1).
  - destruct (wide_operations_outcome DoubleS HF x x m IHpair_reachable IHpair_reachable) as [_ [_ [_ [Q _]]]]. exact (either_wf _ _ _ _ Q H0).
  - destruct (wide_operations_outcome DoubleS HF x x NearestTiesToEven IHpair_reachable IHpair_reachable) as [_ [_ [_ [_ [Q _]]]]]. exact (either_wf _ _ _ _ Q H0).
  - destruct (wide_operations_outcome DoubleS HF x x NearestTiesToEven IHpair_reachable IHpair_reachable) as [_ [_ [_ [_ [_ Q]]]]]. exact (either_wf _ _ _ _ Q H0).
  - destruct (proj1 (dd_halves_total DoubleS HF x m IHpair_reachable) n) as [r' [E Wr]]. assert (r = r') as -> by congruence. exact Wr.
  - destruct (proj1 (proj2 (dd_halves_total DoubleS HF x m IHpair_reachable))) as [r' [e' [E Wr]]]. assert (r = r') as -> by congruence. exact Wr.
  - destruct (dd_get_exact_inverse_outcome DoubleS HF x IHpair_reachable) as [[o [E Wo]]|E]; [|congruence]. apply Wo. congruence.
  - unfold dd_min in H1. choose_operand x y.
  - unfold dd_max in H1. choose_operand x y.
  - unfold dd_minimum in H1. choose_operand x y.
  - unfold dd_maximum in H1. choose_operand x y.
Qed.

(** ** A product of ordinary small numbers that panics *)
Definition p_tiny1 : DFloat := mkDF (mkFloat 4503599674823629 (-537) Normal false) (ZERO DoubleS).
Definition p_tiny2 : DFloat := mkDF (mkFloat 9007199159834727 (-538) Normal false) (ZERO DoubleS).
Ltac from_pattern_dd b := apply (pr_from_bits b); [split; [vm_compute; discriminate|reflexivity]|vm_compute; reflexivity].
Lemma p_tiny_reachable : pair_reachable p_tiny1 /\ pair_reachable p_tiny2.
Proof. split; [from_pattern_dd 0x1e60000002d413cd|from_pattern_dd 0x1e5ffffffa57d867]. Qed.
Lemma p_tiny1_canonical : canonical_pair DoubleS p_tiny1. Proof. sample_canonical. Qed.
Lemma p_tiny2_canonical : canonical_pair DoubleS p_tiny2. Proof. sample_canonical. Qed.
Theorem pair_mul_panics_refuted : exists x y, pair_reachable x /\ pair_reachable y /\ canonical_pair DoubleS x /\ canonical_pair DoubleS y /\
  dd_mul_r DoubleS x y NearestTiesToEven = Panic.
Proof.
  exists p_tiny1, p_tiny2. destruct p_tiny_reachable as [R1 R2]. split; [exact R1|]. split; [exact R2|].
  split; [exact p_tiny1_canonical|]. split; [exact p_tiny2_canonical|]. vm_compute. reflexivity.
Qed.

(** operations in directed modes leave the canonical pairs: 1 + 2^-60, scaled
    down to the smallest numbers and rounded up *)
Theorem pair_reachable_canonical_refuted : exists x n m r, pair_reachable x /\ canonical_pair DoubleS x /\
  dd_scalbn_r DoubleS x n m = Ret r /\ ~ canonical_pair DoubleS r.
Proof.
  set (x := mkDF (mkFloat (2 ^ 52) 0 Normal false) (mkFloat (2 ^ 52) (-60) Normal false)).
  exists x, (-1074), TowardPositive. eexists. split; [unfold x; from_pattern_dd 0x3c300000000000003ff0000000000000|].
  split; [unfold x; sample_canonical|]. split; [vm_compute; reflexivity|].
  intros [_ [_ C]]. revert C. unfold pair_value. cbn [d0 d1].
  set (s := mkFloat 1 (-1022) Normal false).
  assert (W2 : wf DoubleS (mkFloat 2 (-1022) Normal false)) by sample_wf.
  assert (V : (value DoubleS s + value DoubleS s = value DoubleS (mkFloat 2 (-1022) Normal false))%R).
  { unfold value, s. cbn [category sign sig exp signed]. lra. }
  rewrite V. intro C. rewrite (rounded_format DoubleS NearestTiesToEven _ (value_format DoubleS _ (F_ok DoubleS double_pair) W2 (or_introl eq_refl))) in C.
  revert C. unfold value, s. cbn [category sign sig exp signed]. intro C.
  apply Rmult_eq_reg_r in C; [apply eq_IZR in C; discriminate C|apply Rgt_not_eq, bpow_gt_0].
Qed.

(** scalbn(-(1 / 3 - (-5)), -1000) *)
Theorem pair_reachable_sample : exists x, pair_reachable x /\
  x = mkDF (mkFloat 6004799503160661 (-998) Normal true) (mkFloat 5592405 (-1022) Normal true).
Proof.
  assert (R1 : pair_reachable (mkDF (mkFloat 4503599627370496 0 Normal false) (ZERO DoubleS))).
  { apply (pr_from_u128 1 NearestTiesToEven OK); [split; [vm_compute; discriminate|reflexivity]|vm_compute; reflexivity]. }
  assert (R2 : pair_reachable (mkDF (mkFloat 6755399441055744 1 Normal false) (ZERO DoubleS))).
  { apply (pr_from_i128 3 NearestTiesToEven OK); [split; [vm_compute; discriminate|reflexivity]|vm_compute; reflexivity]. }
  assert (R3 : pair_reachable (mkDF (mkFloat 6004799503160661 (-2) Normal false) (mkFloat 6004799503160660 (-56) Normal false))).
  { apply (pr_div _ _ TowardZero INEXACT _ R1 R2). vm_compute. reflexivity. }
  assert (R4 : pair_reachable (mkDF (mkFloat 5629499534213120 2 Normal true) (ZERO DoubleS))).
  { apply (pr_from_i128 (-5) TowardPositive OK); [split; [vm_compute; discriminate|reflexivity]|vm_compute; reflexivity]. }
  assert (R5 : pair_reachable (mkDF (mkFloat 6004799503160661 2 Normal false) (mkFloat 6004799503160661 (-52) Normal false))).
  { apply (pr_sub _ _ NearestTiesToEven INEXACT _ R3 R4). vm_compute. reflexivity. }
  eexists. split; [|reflexivity].
  apply (pr_scalbn _ (-1000) NearestTiesToEven _ (pr_neg _ R5)); [split; vm_compute; discriminate|vm_compute; reflexivity].
Qed.
Lemma p_product_normal : pair_wf DoubleS p_third /\ pair_wf DoubleS p_five /\
  (min_normal DoubleS <= Rabs (value DoubleS (d0 p_third) * value DoubleS (d0 p_five)))%R.
Proof.
  destruct p_product_sample as [_ [A [B [[C _] _]]]]. split; [exact (proj1 A)|]. split; [exact (proj1 B)|].
  eapply Rle_trans; [|exact C]. apply bpow_le. vm_compute. discriminate.
Qed.
