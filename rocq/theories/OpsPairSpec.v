(** * OpsPairSpec.v -- the rest of DoubleFloat's interface *)
From Coq Require Import ZArith Reals List Bool Lia Lra String.
From Flocq Require Import Core.
From Verif Require Import Machine Int Ieee Parse Fmt Ppc Ops OpsPair Spec SpecFma SpecStr SpecFmt SpecPair StrSyntax Special Order Orderx Arith Int Algebra More Pair PairOps PairBase PairMore PairRest PairFlags StrHex OpsSpec.
Import ListNotations.
Local Open Scope Z_scope.
Ltac Zify.zify_post_hook ::= idtac.

(** ** Comparison operators *)
Section Order.
Variable F : Semantics.
Hypothesis HF : pair_ok F.
Theorem dd_gt_spec : forall x y, proper_pair F x -> proper_pair F y ->
  exists b, dd_gt x y = Ret b /\
    (b = true <-> exists a c, pair_number F x = Some a /\ pair_number F y = Some c /\ ext_lt c a).
Proof.
  intros x y Hx Hy. destruct (dd_partial_cmp_spec F HF x y Hx Hy) as [r [E H]]. unfold dd_gt. rewrite E. cbn [bind].
  eexists. split; [reflexivity|]. destruct (pair_number F x) as [a|] eqn:Ea; destruct (pair_number F y) as [c|] eqn:Ec; destruct r as [o|]; try contradiction.
  2-4: split; [discriminate|]; intros [a' [c' [X [Y _]]]]; discriminate.
  split.
  - intro Ho. exists a, c. destruct o; try discriminate. repeat split. exact H.
  - intros [a' [c' [X [Y Z]]]]. inversion X; inversion Y; subst. rewrite (ext_compare_unique a' c' o Gt H Z). reflexivity.
Qed.
Theorem dd_ge_spec : forall x y, proper_pair F x -> proper_pair F y ->
  exists b, dd_ge x y = Ret b /\
    (b = true <-> exists a c, pair_number F x = Some a /\ pair_number F y = Some c /\ ext_le c a).
Proof.
  intros x y Hx Hy. destruct (dd_partial_cmp_spec F HF x y Hx Hy) as [r [E H]]. unfold dd_ge. rewrite E. cbn [bind].
  eexists. split; [reflexivity|]. destruct (pair_number F x) as [a|] eqn:Ea; destruct (pair_number F y) as [c|] eqn:Ec; destruct r as [o|]; try contradiction.
  2-4: split; [discriminate|]; intros [a' [c' [X [Y _]]]]; discriminate.
  split.
  - intro Ho. exists a, c. split; [reflexivity|]. split; [reflexivity|]. destruct o; try discriminate; [right; symmetry; exact H|left; exact H].
  - intros [a' [c' [X [Y [Z|Z]]]]]; inversion X; inversion Y; subst.
    + rewrite (ext_compare_unique a' c' o Gt H Z). reflexivity.
    + rewrite (ext_compare_unique _ _ o Eq H eq_refl). reflexivity.
Qed.
Theorem dd_le_spec : forall x y, proper_pair F x -> proper_pair F y ->
  exists b, dd_le x y = Ret b /\
    (b = true <-> exists a c, pair_number F x = Some a /\ pair_number F y = Some c /\ ext_le a c).
Proof.
  intros x y Hx Hy. destruct (dd_partial_cmp_spec F HF x y Hx Hy) as [r [E H]]. unfold dd_le. rewrite E. cbn [bind].
  eexists. split; [reflexivity|]. destruct (pair_number F x) as [a|] eqn:Ea; destruct (pair_number F y) as [c|] eqn:Ec; destruct r as [o|]; try contradiction.
  2-4: split; [discriminate|]; intros [a' [c' [X [Y _]]]]; discriminate.
  split.
  - intro Ho. exists a, c. split; [reflexivity|]. split; [reflexivity|]. destruct o; try discriminate; [right; exact H|left; exact H].
  - intros [a' [c' [X [Y [Z|Z]]]]]; inversion X; inversion Y; subst.
    + rewrite (ext_compare_unique a' c' o Lt H Z). reflexivity.
    + rewrite (ext_compare_unique _ _ o Eq H eq_refl). reflexivity.
Qed.

(** ** Classification *)
Lemma pair_zero : forall x, proper_pair F x -> (category (d0 x) = Zero <-> pair_number F x = Some (Fin 0)).
Proof.
  intros x [_ H]. unfold pair_number. destruct (category (d0 x)) eqn:C; split; intro E; try discriminate; try (destruct (sign (d0 x)); discriminate).
  - exfalso. injection E as E. destruct H as [[W _] [_ V]]. rewrite E, rounded_0 in V. exact (normal_nonzero F (d0 x) W C V).
  - rewrite (zero_pair F HF x H C). reflexivity.
  - reflexivity.
Qed.
Theorem dd_predicates : forall x, proper_pair F x ->
  (dd_is_nan x = true <-> pair_number F x = None) /\
  (dd_is_infinite x = true <-> pair_number F x = Some PosInf \/ pair_number F x = Some NegInf) /\
  (dd_is_pos_infinity x = true <-> pair_number F x = Some PosInf) /\
  (dd_is_neg_infinity x = true <-> pair_number F x = Some NegInf) /\
  (dd_is_finite x = true <-> exists r, pair_number F x = Some (Fin r)) /\
  (dd_is_zero x = true <-> pair_number F x = Some (Fin 0)) /\
  (dd_is_non_zero x = true <-> pair_number F x <> Some (Fin 0)) /\
  (dd_is_finite_non_zero x = true <-> exists r, pair_number F x = Some (Fin r) /\ r <> 0%R) /\
  (dd_is_pos_zero x = true <-> pair_number F x = Some (Fin 0) /\ sign (d0 x) = false) /\
  (dd_is_neg_zero x = true <-> pair_number F x = Some (Fin 0) /\ sign (d0 x) = true).
Proof.
  intros x Hx. pose proof (pair_zero x Hx) as Z.
  unfold dd_is_pos_zero, dd_is_neg_zero, dd_is_finite_non_zero, dd_is_non_zero, dd_is_finite, dd_is_pos_infinity, dd_is_neg_infinity, dd_is_nan, dd_is_infinite, dd_is_zero, dd_category, dd_is_negative, is_negative.
  unfold pair_number in *. destruct (category (d0 x)), (sign (d0 x)); cbn [category_eqb negb andb orb] in *.
  all: repeat match goal with |- _ /\ _ => split | |- _ <-> _ => split end; intros;
    repeat match goal with H : _ /\ _ |- _ => destruct H | H : _ \/ _ |- _ => destruct H | H : exists _, _ |- _ => destruct H end;
    try discriminate; try congruence; try reflexivity; try (left; reflexivity); try (right; reflexivity).
  all: try (eexists; reflexivity).
  all: try (apply Z; reflexivity).
  all: try (exfalso; destruct Z as [_ Z]; discriminate (Z ltac:(assumption))).
  all: try (exfalso; destruct Z as [Z _]; specialize (Z eq_refl); congruence).
  all: try (intro E; destruct Z as [_ Z]; discriminate (Z E)).
  all: try (eexists; split; [reflexivity|]; intro E; destruct Z as [_ Z]; rewrite E in Z; discriminate (Z eq_refl)).
  all: split; [apply Z; reflexivity|reflexivity].
Qed.
Theorem dd_is_normal_spec : forall x, pair_wf F x -> pair_finite x ->
  exists b, dd_is_normal F x = Ret b /\
    (b = true <-> category (d0 x) = Normal /\ (min_normal F <= Rabs (value F (d0 x)))%R /\ canonical_pair F x).
Proof.
  intros x Wx Fx. destruct (dd_is_denormal_spec F HF x Wx Fx) as [b [E B]]. unfold dd_is_normal. rewrite E. cbn [bind].
  eexists. split; [reflexivity|]. unfold dd_is_finite_non_zero, dd_is_finite, dd_is_nan, dd_is_infinite, dd_is_zero, dd_category.
  pose proof (proj1 Fx) as G. destruct G as [C|C]; rewrite C in *; cbn [category_eqb negb andb].
  2: { rewrite andb_false_r. split; [discriminate|]. intros [Q _]. discriminate Q. }
  rewrite andb_true_r. split.
  - intro Q. destruct b; [discriminate Q|]. split; [reflexivity|]. split.
    + apply Rnot_lt_le. intro L. assert (false = true) by (apply B; tauto). discriminate.
    + destruct (Req_dec (value F (d0 x)) (rounded F NearestTiesToEven (pair_value F x))) as [K|K]; [split; [exact Wx|]; split; [exact Fx|exact K]|]. assert (false = true) by (apply B; split; [reflexivity|]; right; intros [_ [_ Q']]; exact (K Q')). discriminate.
  - intros [_ [L K]]. destruct b; [|reflexivity]. destruct (proj1 B eq_refl) as [_ [M|M]]; [lra|contradiction].
Qed.
Theorem dd_is_normal_special : forall x, ~ finite (d0 x) -> dd_is_normal F x = Ret false.
Proof.
  intros x N. unfold dd_is_normal, dd_is_denormal, dd_is_finite_non_zero, dd_is_finite, dd_is_nan, dd_is_infinite, dd_is_zero, dd_category, finite in *.
  destruct (category (d0 x)); try tauto; reflexivity.
Qed.

(** ** Default rounding modes *)
Theorem dd_mul_add_spec : forall x y z, canonical_pair F x -> canonical_pair F y -> canonical_pair F z ->
  exists u v w, widened F x u /\ widened F y v /\ widened F z w /\
    (~ product_cut (FallbackS F) u v w ->
       via_wide F (fun st f => correctly_rounded (FallbackS F) nearest (operand F x * operand F y + operand F z)
           (fma_zero_sign (xorb (sign (d0 x)) (sign (d0 y))) (d0 z) nearest) (st, f)) (dd_mul_add F x y z)).
Proof.
  intros x y z Hx Hy Hz. destruct (dd_mul_add_r_any F HF x y z NearestTiesToEven Hx Hy Hz) as [u [v [w [A [B [C [D _]]]]]]].
  exists u, v, w. split; [exact A|]. split; [exact B|]. split; [exact C|]. exact D.
Qed.
Theorem dd_from_i128_spec : forall n, - 2 ^ 127 <= n < 2 ^ 127 ->
  via_wide F (fun st f => correctly_rounded (FallbackS F) nearest (IZR n) false (st, f)) (dd_from_i128 F n).
Proof. intros n B. exact (dd_from_i128_r_spec F HF n NearestTiesToEven B). Qed.
Theorem dd_from_u128_spec : forall n, 0 <= n < 2 ^ 128 ->
  via_wide F (fun st f => correctly_rounded (FallbackS F) nearest (IZR n) false (st, f)) (dd_from_u128 F n).
Proof. intros n B. exact (dd_from_u128_r_spec F HF n NearestTiesToEven B). Qed.
Theorem dd_to_u128_spec : forall x w, readable F x -> 1 <= w <= 128 ->
  exists st n, dd_to_u128 F x w = Ret (st, n) /\ pair_to_int F x TowardZero 0 (2 ^ w - 1) st n.
Proof.
  intros x w Hx Hw. destruct (dd_to_u128_r_all F HF x w TowardZero Hx Hw) as [st [n [ex [E [H _]]]]].
  exists st, n. split; [|exact H]. unfold dd_to_u128. rewrite E. reflexivity.
Qed.
Theorem dd_to_i128_spec : forall x w, readable F x -> (if sign (d0 x) then 1 else 2) <= w <= 128 ->
  exists st n, dd_to_i128 F x w = Ret (st, n) /\ pair_to_int F x TowardZero (- 2 ^ (w - 1)) (2 ^ (w - 1) - 1) st n.
Proof.
  intros x w Hx Hw. destruct (dd_to_i128_r_all F HF x w TowardZero Hx Hw) as [st [n [ex [E [H _]]]]].
  exists st, n. split; [|exact H]. unfold dd_to_i128. rewrite E. reflexivity.
Qed.
Theorem dd_scalbn_spec : forall x n, pair_wf F x -> pair_finite x ->
  exists r st0 st1, dd_scalbn F x n = Ret r /\
    correctly_rounded F nearest (value F (d0 x) * bpow r2 n) (sign (d0 x)) (st0, d0 r) /\
    correctly_rounded F nearest (value F (d1 x) * bpow r2 n) (sign (d1 x)) (st1, d1 r).
Proof. intros x n Wx Fx. exact (dd_scalbn_r_spec F HF x n NearestTiesToEven Wx Fx). Qed.
Theorem dd_frexp_spec : forall x, pair_wf F x -> category (d0 x) = Normal -> finite (d1 x) ->
  exists r e st, dd_frexp F x = Ret (r, e) /\ wf F (d0 r) /\ finite (d0 r) /\
    value F (d0 x) = (value F (d0 r) * bpow r2 e)%R /\ (/ 2 <= Rabs (value F (d0 r)) < 1)%R /\
    correctly_rounded F nearest (value F (d1 x) * bpow r2 (- e)) (sign (d1 x)) (st, d1 r).
Proof. intros x Wx C Fx. exact (dd_frexp_r_normal F HF x NearestTiesToEven Wx C Fx). Qed.

(** ** Compound assignment *)
Theorem dd_add_assign_spec : 4 <= PRECISION F -> forall x y, canonical_pair F x -> canonical_pair F y ->
  (Rabs (value F (d0 x)) + Rabs (value F (d0 y)) <= bpow r2 (MAX_EXP F - 4))%R ->
  exists r, dd_add_assign F x y = Ret r /\ canonical_pair F r /\
    (Rabs (pair_value F r - (pair_value F x + pair_value F y)) <=
       bpow r2 (2 - 2 * PRECISION F) * (Rabs (value F (d0 x)) + Rabs (value F (d0 y))))%R.
Proof.
  intros HP x y Hx Hy B. destruct (dd_op_add_spec F HF HP x y Hx Hy B) as [st [r [E H]]]. exists r. split; [|exact H].
  unfold dd_add_assign. rewrite E. reflexivity.
Qed.
Theorem dd_sub_assign_spec : 4 <= PRECISION F -> forall x y, canonical_pair F x -> canonical_pair F y ->
  (Rabs (value F (d0 x)) + Rabs (value F (d0 y)) <= bpow r2 (MAX_EXP F - 4))%R ->
  exists r, dd_sub_assign F x y = Ret r /\ canonical_pair F r /\
    (Rabs (pair_value F r - (pair_value F x - pair_value F y)) <=
       bpow r2 (2 - 2 * PRECISION F) * (Rabs (value F (d0 x)) + Rabs (value F (d0 y))))%R.
Proof.
  intros HP x y Hx Hy B. destruct (dd_op_sub_spec F HF HP x y Hx Hy B) as [st [r [E H]]]. exists r. split; [|exact H].
  unfold dd_sub_assign. rewrite E. reflexivity.
Qed.
Theorem dd_mul_assign_spec : 4 <= PRECISION F -> forall x y, canonical_pair F x -> canonical_pair F y ->
  (bpow r2 (MIN_EXP F + 2 * PRECISION F + 1) <= Rabs (value F (d0 x) * value F (d0 y)) <= bpow r2 (MAX_EXP F - 4))%R ->
  exists r, dd_mul_assign F x y = Ret r /\ canonical_pair F r /\
    (Rabs (pair_value F r - pair_value F x * pair_value F y) <= bpow r2 (4 - 2 * PRECISION F) * Rabs (pair_value F x * pair_value F y))%R.
Proof.
  intros HP x y Hx Hy B. destruct (dd_op_mul_spec F HF HP x y Hx Hy B) as [st [r [E H]]]. exists r. split; [|exact H].
  unfold dd_mul_assign. rewrite E. reflexivity.
Qed.
Theorem dd_div_assign_spec : forall x y, canonical_pair F x -> canonical_pair F y -> operand F y <> 0%R ->
  exists st f, wf (FallbackS F) f /\ correctly_rounded (FallbackS F) nearest (operand F x / operand F y) (xorb (sign (d0 x)) (sign (d0 y))) (st, f) /\
    (splittable F f -> exists r, dd_div_assign F x y = Ret r /\ split_of F f r) /\
    (~ splittable F f -> dd_div_assign F x y = Panic).
Proof.
  intros x y Hx Hy N. destruct (dd_op_div_spec F HF x y Hx Hy N) as [st [f [D0 [D [E P]]]]].
  exists st, f. split; [exact D0|]. split; [exact D|]. unfold dd_div_assign. split.
  - intro K. destruct (E K) as [r [-> H]]. exists r. split; [reflexivity|exact H].
  - intro K. rewrite (P K). reflexivity.
Qed.
Theorem dd_rem_assign_spec : forall x y, canonical_pair F x -> canonical_pair F y -> operand F y <> 0%R ->
  exists f, wf (FallbackS F) f /\ (finite f /\ sign f = sign (d0 x) /\
      value (FallbackS F) f = (operand F x - IZR (Ztrunc (operand F x / operand F y)) * operand F y)%R /\
      (Rabs (value (FallbackS F) f) < Rabs (operand F y))%R) /\
    (splittable F f -> exists r, dd_rem_assign F x y = Ret r /\ split_of F f r) /\
    (~ splittable F f -> dd_rem_assign F x y = Panic).
Proof.
  intros x y Hx Hy N. destruct (dd_op_rem_spec F HF x y Hx Hy N) as [st [f [D0 [D [E P]]]]].
  exists f. split; [exact D0|]. split; [exact (proj2 D)|]. unfold dd_rem_assign. split.
  - intro K. destruct (E K) as [r [-> H]]. exists r. split; [reflexivity|exact H].
  - intro K. rewrite (P K). reflexivity.
Qed.
End Order.

(** ** [Debug] *)
Lemma debug_suffix : forall S x y a b s t, wf S x -> wf S y -> debug S x = Ret s -> debug S y = Ret t -> a ++ s = b ++ t -> x = y /\ a = b.
Proof.
  intros S x y a b s t Wx Wy Ex Ey Sy. pose proof Sy as Q. destruct (debug_shape S x s Ex) as [tx [_ Sx]]. destruct (debug_shape S y t Ey) as [ty [_ Sy']].
  assert (x = y) as K; [|split; [exact K|]; subst y; rewrite Ex in Ey; apply Ret_inj in Ey; subst t; exact (app_inv_tail _ _ _ Q)].
  clear Q. destruct Wx as [Lx [Ix _]]. destruct Wy as [Ly [Iy _]]. rewrite Sx, Sy' in Sy. clear Ex Ey Sx Sy'. repeat rewrite app_assoc in Sy.
  apply app_inj_tail in Sy. destruct Sy as [Sy _].
  apply last_split in Sy; [|intro I; exact (fmt_int_in _ _ Ix I eq_refl)|intro I; exact (fmt_int_in _ _ Iy I eq_refl)].
  destruct Sy as [Sy Ee]. apply fmt_int_inj in Ee; try assumption. apply app_inv_tail in Sy.
  pose proof (limb_digits _ Lx) as Dx. pose proof (limb_digits _ Ly) as Dy.
  apply last_split in Sy; [|intro I; pose proof (digits_in _ _ _ Dx I); lia|intro I; pose proof (digits_in _ _ _ Dy I); lia].
  destruct Sy as [Sy Es]. rewrite Es in Dx. pose proof (digits_unique 10 _ _ _ ltac:(lia) Dx Dy) as Ess. clear Es Dx Dy.
  rewrite <- !(app_assoc (category_name _)) in Sy. apply last_split in Sy; [|apply category_tail_in|apply category_tail_in]. destruct Sy as [_ Sc]. apply category_tail_inj in Sc. destruct Sc as [Ec Eg].
  destruct x, y. cbn in *. congruence.
Qed.
Theorem dd_debug_spec : forall F x, sem_ok F -> pair_wf F x ->
  exists a b, debug F (d0 x) = Ret a /\ debug F (d1 x) = Ret b /\ dd_debug F x = Ret (bytes "DoubleFloat(" ++ a ++ bytes ", " ++ b ++ bytes ")") /\
    forall y, pair_wf F y -> dd_debug F y = dd_debug F x -> x = y.
Proof.
  intros F x HF [W0 W1]. destruct (debug_spec F (d0 x) HF W0) as [a [Ea _]]. destruct (debug_spec F (d1 x) HF W1) as [b [Eb _]].
  exists a, b. split; [exact Ea|]. split; [exact Eb|]. unfold dd_debug. rewrite Ea, Eb. cbn [bind]. split; [reflexivity|].
  intros y [V0 V1] E. destruct (debug_spec F (d0 y) HF V0) as [a' [Ea' _]]. destruct (debug_spec F (d1 y) HF V1) as [b' [Eb' _]].
  rewrite Ea', Eb' in E. cbn [bind] in E. apply Ret_inj in E. apply app_inv_head in E.
  change (bytes ")") with [41] in E. repeat rewrite app_assoc in E. apply app_inj_tail in E. destruct E as [E _].
  destruct (debug_suffix F _ _ _ _ _ _ V1 W1 Eb' Eb E) as [K1 Q]. apply app_inv_tail in Q.
  destruct (debug_suffix F _ _ [] [] _ _ V0 W0 Ea' Ea Q) as [K0 _]. destruct x, y. cbn in *. congruence.
Qed.
