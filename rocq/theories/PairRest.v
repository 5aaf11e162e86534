(** * PairRest.v -- pairs: special operands, exactness of conversions to
    integers, fused multiply-add outside its safe range, signaling operands in any
    position, NaN literals (src/ppc.rs:342-387, 427-450). *)
From Coq Require Import ZArith Znumtheory Reals List Bool Lia Lra.
From Flocq Require Import Core.
From Verif Require Import Machine Sig SpecSig Ieee Parse Fmt Ppc Spec SpecStr Norm Arith Special Order Int Scale Next Convert Integral Rem Fma SpecFma FmaExact Algebra SpecPair Pair PairOps PairBase Nans StrSyntax More PairMore.
Local Open Scope Z_scope.
Ltac Zify.zify_post_hook ::= idtac.

Section Rest.
Variable F : Semantics.
Hypothesis HF : pair_ok F.
Notation W := (FallbackS F).
Notation p := (PRECISION F).
Let WO := W_ok F HF.
Let FO := F_ok F HF.

Ltac read x H w Q := destruct (to_fallback_reads F HF x H) as [w [-> Q]]; cbn [bind].

(** ** Conversion to integers *)
Lemma widened_int : forall x w m lo hi st n, readable F x -> widened F x w -> converted_to_int W w m lo hi st n -> pair_to_int F x m lo hi st n.
Proof.
  intros x w m lo hi st n Hx Q D. pose proof (widened_category F HF _ _ Hx Q) as C.
  unfold converted_to_int in D. unfold pair_to_int. destruct Q as [_ [G K]]. rewrite C in D. destruct (category (d0 x)); try rewrite G in D; try (rewrite (proj2 K) in D); exact D.
Qed.
Theorem dd_to_u128_r_all : forall x w m, readable F x -> 1 <= w <= 128 ->
  exists st n ex, dd_to_u128_r F x w m = Ret (st, n, ex) /\ pair_to_int F x m 0 (2 ^ w - 1) st n /\
    (ex = true <-> st <> INVALID_OP /\ IZR n = operand F x /\ ~ (category (d0 x) = Zero /\ sign (d0 x) = true)).
Proof.
  intros x w m Hx Hw. unfold dd_to_u128_r. read x Hx x' Qx. pose proof (widened_category F HF _ _ Hx Qx) as C.
  destruct (to_u128_r_spec W x' w m WO (proj1 Qx) Hw) as [st [n [ex [-> [D X]]]]]. exists st, n, ex. split; [reflexivity|].
  pose proof (widened_int _ _ _ _ _ _ _ Hx Qx D) as P. split; [exact P|]. rewrite X. rewrite C. destruct Qx as [_ [G K]]. rewrite G.
  unfold pair_to_int in P.
  destruct (category (d0 x)); try (rewrite (proj2 K); tauto); split; intros [Y _]; destruct (Y (proj1 P)).
Qed.

Lemma dd_to_i128_r_wide : forall x w m, readable F x ->
  exists u, widened F x u /\ dd_to_i128_r F x w m = to_i128_r W u w m.
Proof.
  intros x w m Hx. destruct (to_fallback_reads F HF x Hx) as [u [E Q]]. exists u. split; [exact Q|].
  pose proof (widened_category F HF _ _ Hx Q) as C. pose proof Q as [Wu [G K]].
  unfold dd_to_i128_r, to_i128_r. change (dd_is_negative x) with (sign (d0 x)). change (is_negative u) with (sign u). rewrite G.
  destruct (sign (d0 x)) eqn:Gx; [|unfold dd_to_u128_r; rewrite E; reflexivity].
  destruct (to_fallback_reads F HF (dd_neg x) (readable_neg F x Hx)) as [u' [E' Q']].
  pose proof (widened_category F HF _ _ (readable_neg F x Hx) Q') as C'. pose proof Q' as [Wu' [G' K']].
  rewrite d0_neg in C', G', K'. rewrite category_neg in C', K'. rewrite sign_neg, Gx in G'.
  unfold dd_to_u128_r. rewrite E'. cbn [bind].
  replace (to_u128_r W u' w (round_neg m)) with (to_u128_r W (neg u) w (round_neg m)); [reflexivity|].
  assert (category (neg u) = category u') as CC by (rewrite category_neg; congruence).
  destruct (category (d0 x)) eqn:D.
  1,2,4: unfold to_u128_r, is_negative; rewrite CC, C', sign_neg, G, G'; reflexivity.
  assert (canonical_pair F x) as Hc by (unfold readable in Hx; rewrite D in Hx; exact Hx).
  rewrite (normal_ext W (neg u) u' WO); [reflexivity|apply wf_neg, Wu|exact Wu'|congruence|exact C'| |].
  - rewrite sign_neg, G, G'. reflexivity.
  - rewrite value_neg, (proj2 K), (proj2 K'). rewrite operand_neg by apply Hc. reflexivity.
Qed.
Theorem dd_to_i128_r_all : forall x w m, readable F x -> (if sign (d0 x) then 1 else 2) <= w <= 128 ->
  exists st n ex, dd_to_i128_r F x w m = Ret (st, n, ex) /\ pair_to_int F x m (- 2 ^ (w - 1)) (2 ^ (w - 1) - 1) st n /\
    (ex = true <-> st <> INVALID_OP /\ IZR n = operand F x).
Proof.
  intros x w m Hx Hw. destruct (dd_to_i128_r_wide x w m Hx) as [u [Q ->]].
  rewrite <- (proj1 (proj2 Q)) in Hw. destruct (to_i128_r_spec W u w m WO (proj1 Q) Hw) as [st [n [ex [-> [D X]]]]].
  exists st, n, ex. split; [reflexivity|]. pose proof (widened_int _ _ _ _ _ _ _ Hx Q D) as P. split; [exact P|]. rewrite X.
  destruct Q as [_ [G K]]. unfold pair_to_int in P.
  destruct (category (d0 x)); try (rewrite (proj2 K); tauto); split; intros [Y _]; destruct (Y (proj1 P)).
Qed.

(** ** Fused multiply-add *)
Theorem dd_mul_add_r_any : forall x y z m, canonical_pair F x -> canonical_pair F y -> canonical_pair F z ->
  exists u v w, widened F x u /\ widened F y v /\ widened F z w /\
    (~ product_cut W u v w ->
       via_wide F (fun st f => correctly_rounded W m (operand F x * operand F y + operand F z)
           (fma_zero_sign (xorb (sign (d0 x)) (sign (d0 y))) (d0 z) m) (st, f)) (dd_mul_add_r F x y z m)) /\
    (product_cut W u v w -> cut_down W (Rabs (operand F x * operand F y)) = Rabs (operand F z) -> dd_mul_add_r F x y z m = Panic) /\
    (product_cut W u v w -> cut_down W (Rabs (operand F x * operand F y)) <> Rabs (operand F z) ->
       via_wide F (fun st f => correctly_rounded W m (fma_seen W u v w) false (st, f)) (dd_mul_add_r F x y z m)).
Proof.
  intros x y z m Hx Hy Hz. unfold dd_mul_add_r. read x (canonical_readable F x Hx) u Qx. read y (canonical_readable F y Hy) v Qy.
  read z (canonical_readable F z Hz) w Qz. exists u, v, w. split; [exact Qx|]. split; [exact Qy|]. split; [exact Qz|].
  destruct (widened_finite F x u Qx Hx) as [A1 [A2 [A3 A4]]]. destruct (widened_finite F y v Qy Hy) as [B1 [B2 [B3 B4]]].
  destruct (widened_finite F z w Qz Hz) as [D1 [D2 [D3 D4]]].
  split; [|split].
  - intro N. destruct (mul_add_r_uncut W WO u v w m A1 B1 D1 A2 B2 D2 N) as [[st f] [-> E]].
    apply crate_rounded_ieee in E; [|reflexivity]. rewrite A3, B3, D3, A4, B4 in E. unfold fma_zero_sign in *. rewrite D4 in E.
    apply via_wide_intro; [exact HF|exact (proj1 E)|exact E].
  - intros P Q. destruct (mul_add_r_cut W WO u v w m A1 B1 D1 A2 B2 D2 P) as [K _]. rewrite A3, B3, D3 in K. rewrite (K Q). reflexivity.
  - intros P Q. destruct (mul_add_r_cut W WO u v w m A1 B1 D1 A2 B2 D2 P) as [_ K]. rewrite A3, B3, D3 in K.
    destruct (K Q false) as [_ [[st f] [-> E]]]. apply crate_rounded_ieee in E; [|reflexivity].
    apply via_wide_intro; [exact HF|exact (proj1 E)|exact E].
Qed.
Theorem dd_mul_add_r_infinite : forall x y z m, readable F x -> readable F y -> readable F z ->
  category (d0 x) <> NaN -> category (d0 y) <> NaN -> category (d0 z) <> NaN ->
  category (d0 x) = Infinity \/ category (d0 y) = Infinity \/ category (d0 z) = Infinity ->
  exists st r, dd_mul_add_r F x y z m = Ret (st, r) /\
    let g := xorb (sign (d0 x)) (sign (d0 y)) in
    match category (d0 x), category (d0 y), category (d0 z) with
    | Infinity, Zero, _ | Zero, Infinity, _ => st = INVALID_OP /\ pair_nan F r
    | Infinity, _, Infinity | _, Infinity, Infinity =>
      if Bool.eqb g (sign (d0 z)) then st = OK /\ pair_special F Infinity g r else st = INVALID_OP /\ pair_nan F r
    | Infinity, _, _ | _, Infinity, _ => st = OK /\ pair_special F Infinity g r
    | _, _, _ => st = OK /\ pair_special F Infinity (sign (d0 z)) r
    end.
Proof.
  intros x y z m Hx Hy Hz Nx Ny Nz I. unfold dd_mul_add_r. read x Hx u Qx. read y Hy v Qy. read z Hz w Qz.
  pose proof (widened_category F HF _ _ Hx Qx) as Cx. pose proof (widened_category F HF _ _ Hy Qy) as Cy. pose proof (widened_category F HF _ _ Hz Qz) as Cz.
  rewrite <- Cx in *. rewrite <- Cy in *. rewrite <- Cz in *.
  destruct (mul_add_r_infinite W u v w m WO (proj1 Qx) (proj1 Qy) (proj1 Qz) Nx Ny Nz I) as [st [f [-> D]]].
  rewrite (proj1 (proj2 Qx)), (proj1 (proj2 Qy)), (proj1 (proj2 Qz)) in D.
  assert (forall st' g, st = st' /\ is_special W Infinity g f -> exists r, map_from_fallback F (Ret (st, f)) = Ret (st, r) /\ st = st' /\ pair_special F Infinity g r) as KI.
  { intros st' g [E Q]. destruct (map_ok F HF st f (proj1 Q) (special_splittable F HF f (or_introl (proj1 (proj2 Q))))) as [r [R S]].
    exists r. split; [exact R|]. split; [exact E|]. exact (split_special_inf F f r g Q S). }
  assert (forall st', st = st' /\ default_nan W f -> exists r, map_from_fallback F (Ret (st, f)) = Ret (st, r) /\ st = st' /\ pair_nan F r) as KN.
  { intros st' [E Q]. assert (category f = NaN /\ signaling W f = false) as NQ by (destruct Q as [_ [? ?]]; tauto).
    destruct (map_ok F HF st f (proj1 Q) (special_splittable F HF f (or_intror (or_intror NQ)))) as [r [R S]].
    exists r. split; [exact R|]. split; [exact E|]. exact (split_nan F f r Q S). }
  cbv zeta in D |- *.
  destruct (category u), (category v), (category w); try congruence; try (exfalso; destruct I as [I|[I|I]]; discriminate);
    try destruct (Bool.eqb _ _); first [destruct (KI _ _ D) as [r R]|destruct (KN _ D) as [r R]]; exists st, r; exact R.
Qed.
Theorem dd_mul_add_r_nan : forall x y z m, readable F x -> readable F y -> readable F z ->
  category (d0 x) = NaN \/ category (d0 y) = NaN \/ category (d0 z) = NaN ->
  exists st r, dd_mul_add_r F x y z m = Ret (st, r) /\
    match category (d0 x), category (d0 y) with
    | NaN, _ | _, NaN => st = OK /\ pair_same_nan (first_nan_pair x y) r
    | Infinity, Zero | Zero, Infinity => st = INVALID_OP /\ pair_nan F r
    | _, _ => st = OK /\ pair_same_nan z r
    end.
Proof.
  intros x y z m Hx Hy Hz N. unfold dd_mul_add_r. read x Hx u Qx. read y Hy v Qy. read z Hz w Qz.
  pose proof (widened_category F HF _ _ Hx Qx) as Cx. pose proof (widened_category F HF _ _ Hy Qy) as Cy. pose proof (widened_category F HF _ _ Hz Qz) as Cz.
  destruct (mul_add_r_nan W u v w m WO (proj1 Qx) (proj1 Qy)) as [st [f [-> D]]]; [rewrite Cx, Cy, Cz; exact N|].
  rewrite (widened_quiet F HF x u Hx Qx), (widened_quiet F HF y v Hy Qy), (widened_quiet F HF z w Hz Qz) in D. cbn [orb invalid_if] in D.
  rewrite Cx, Cy in D.
  assert (forall t t', readable F t -> widened F t t' -> category (d0 t) = NaN -> st = OK /\ f = quieted W t' ->
    exists st' r, map_from_fallback F (Ret (st, f)) = Ret (st', r) /\ st' = OK /\ pair_same_nan t r) as K.
  { intros t t' Ht Qt Ct [-> ->]. pose proof (widened_category F HF _ _ Ht Qt) as Ct'. rewrite Ct in Ct'. pose proof (widened_quiet F HF t t' Ht Qt) as St.
    rewrite (quieted_of_quiet W t' WO Ct' St).
    destruct (map_ok F HF OK t' (proj1 Qt) (special_splittable F HF t' (or_intror (or_intror (conj Ct' St))))) as [r [E S]].
    exists OK, r. split; [exact E|]. split; [reflexivity|]. exact (split_same_nan F HF t t' r Ht Ct Qt S). }
  assert (st = INVALID_OP /\ default_nan W f -> exists st' r, map_from_fallback F (Ret (st, f)) = Ret (st', r) /\ st' = INVALID_OP /\ pair_nan F r) as KN.
  { intros [E Q]. assert (category f = NaN /\ signaling W f = false) as NQ by (destruct Q as [_ [? ?]]; tauto).
    destruct (map_ok F HF st f (proj1 Q) (special_splittable F HF f (or_intror (or_intror NQ)))) as [r [R S]].
    exists st, r. split; [exact R|]. split; [exact E|]. exact (split_nan F f r Q S). }
  unfold first_nan_pair, first_nan in *. rewrite Cx in D.
  destruct (category (d0 x)) eqn:X, (category (d0 y)) eqn:Y;
    solve [exact (KN D) | exact (K x u Hx Qx X D) | exact (K y v Hy Qy Y D) | apply (K z w Hz Qz); [destruct N as [N|[N|N]]; [discriminate|discriminate|exact N]|exact D]].
Qed.

(** ** Signaling operands in any position *)
Theorem dd_signaling_second : forall x y z m, readable F x -> readable F z -> wf F (d0 y) -> category (d0 y) = NaN -> signaling F (d0 y) = true ->
  dd_div_r F x y m = Panic /\ dd_c_fmod F x y = Panic /\ dd_ieee_rem F x y = Panic /\
  dd_mul_add_r F x y z m = Panic /\ dd_mul_add_r F x z y m = Panic /\ dd_mul_add_r F y x z m = Panic.
Proof.
  intros x y z m Hx Hz Wy Cy Sy. pose proof (to_fallback_signaling F HF y Wy Cy Sy) as E.
  unfold dd_div_r, dd_c_fmod, dd_ieee_rem, dd_mul_add_r. rewrite E.
  read x Hx u Qx. read z Hz w Qz. repeat split.
Qed.
Theorem dd_signaling_rest : forall x w m, wf F (d0 x) -> category (d0 x) = NaN -> signaling F (d0 x) = true ->
  dd_next_down F x = Panic /\ (1 <= w -> dd_to_i128_r F x w m = Panic).
Proof.
  intros x w m Wx Cx Sx. pose proof (to_fallback_signaling F HF x Wx Cx Sx) as E.
  assert (to_fallback F (dd_neg x) = Panic) as E'.
  { apply to_fallback_signaling; rewrite ?d0_neg; [exact HF|apply wf_neg, Wx|rewrite category_neg; exact Cx|].
    rewrite <- Sx. unfold signaling. rewrite category_neg, sig_neg. reflexivity. }
  split; [unfold dd_next_down, dd_next_up; rewrite E'; reflexivity|]. intro Hw. unfold dd_to_i128_r, dd_to_u128_r. rewrite E, E'. cbn [bind].
  unfold usub. replace (1 <=? w) with true by (symmetry; apply Z.leb_le, Hw). destruct (dd_is_negative x); reflexivity.
Qed.

(** ** scalbn, frexp, exact inverses of special pairs *)
Theorem dd_scalbn_r_special : forall x n m, pair_wf F x -> category (d0 x) <> Normal -> category (d1 x) = Zero ->
  exists r, dd_scalbn_r F x n m = Ret r /\ pair_wf F r /\ category (d0 r) = category (d0 x) /\ sign (d0 r) = sign (d0 x) /\
    (category (d0 x) = NaN -> sig (d0 r) = sig (quieted F (d0 x))) /\ category (d1 r) = Zero /\ sign (d1 r) = sign (d1 x).
Proof.
  intros x n m [H0 H1] C0 C1. unfold dd_scalbn_r. destruct (scalbn_r_special F (d0 x) n m FO H0 C0) as [a [-> [A1 [A2 [A3 A4]]]]]. cbn [bind].
  destruct (scalbn_r_special F (d1 x) n m FO H1) as [b [-> [B1 [B2 [B3 B4]]]]]; [congruence|]. cbn [bind].
  exists (mkDF a b). cbn [d0 d1]. split; [reflexivity|]. split; [split; assumption|]. split; [assumption|]. split; [assumption|]. split; [exact A4|]. split; [rewrite B2; exact C1|exact B3].
Qed.
Theorem dd_frexp_r_special : forall x m, pair_wf F x -> category (d0 x) <> Normal ->
  exists r e, dd_frexp_r F x m = Ret (r, e) /\ pair_wf F r /\ category (d0 r) = category (d0 x) /\ sign (d0 r) = sign (d0 x) /\ d1 r = d1 x /\
    match category (d0 x) with
    | NaN => e = - 2 ^ 31 /\ sig (d0 r) = sig (quieted F (d0 x))
    | Infinity => e = 2 ^ 31 - 1
    | _ => e = 0
    end.
Proof.
  intros x m [H0 H1] C0. unfold dd_frexp_r. destruct (frexp_r_special F (d0 x) m FO H0 C0) as [a [e [-> [A1 [A2 [A3 A4]]]]]]. cbn [bind].
  exists (mkDF a (d1 x)), e. cbn [d0 d1]. split; [change (dd_category x) with (category (d0 x)); destruct (category (d0 x)); try reflexivity; congruence|].
  split; [split; assumption|]. split; [exact A2|]. split; [exact A3|]. split; [reflexivity|exact A4].
Qed.
Theorem dd_get_exact_inverse_special : forall x, readable F x -> category (d0 x) <> Normal -> dd_get_exact_inverse F x = Ret None.
Proof.
  intros x Hx C. unfold dd_get_exact_inverse. read x Hx u Qx. pose proof (widened_category F HF _ _ Hx Qx) as Cu.
  destruct (get_exact_inverse_spec W u WO (proj1 Qx)) as [o [-> D]]. cbn [bind]. destruct o as [y|]; [|reflexivity].
  exfalso. destruct D as [Fu [_ [_ [M [_ [D _]]]]]]. destruct Fu as [Fu|Fu]; [congruence|]. rewrite (value_zero W u Fu) in D. lra.
Qed.

(** ** NaN literals *)
Theorem dd_from_str_nan : forall s g q pl m, nan_text s g q pl ->
  if q then dd_from_str_r F s m = Panic
  else exists r, dd_from_str_r F s m = Ret (Ok (OK, r)) /\ pair_nan F r /\ sign (d0 r) = g /\
    low_payload F (d0 r) = (payload_bits pl mod 2 ^ (2 * p - 2)) / 2 ^ p.
Proof.
  intros s g q pl m H. destruct (from_str_nan_value W s g q pl m WO H) as [f [E [Q P]]]. destruct (P eq_refl) as [S L]. clear P.
  pose proof (proj1 Q) as Wf. pose proof (proj1 (proj2 Q)) as Cf. pose proof (proj2 (proj2 Q)) as Gf.
  destruct (from_fallback_spec F HF f Wf) as [K1 K2]. unfold splittable in K1, K2. rewrite Cf in K1, K2.
  rewrite (dd_from_str_ok F s m OK f E). unfold map_from_fallback. cbn [bind].
  destruct q.
  - rewrite K2 by (rewrite S; discriminate). reflexivity.
  - destruct (K1 S) as [r [-> R]]. cbn [bind]. exists r. split; [reflexivity|]. unfold split_of in R. rewrite Cf in R. destruct R as [G [N [Z X]]].
    split; [exact (conj N (proj1 (proj2 Z)))|]. split; [congruence|].
    unfold low_payload in *. cbn [andb] in L. cbv zeta in L. rewrite (W_prec F) in L.
    assert (2 <= p) as Hp by (pose proof (ok_prec _ FO); lia).
    rewrite <- L. clear L E K1 K2.
    assert (forall v, (v mod 2 ^ (p - 1)) mod 2 ^ (p - 2) = v mod 2 ^ (p - 2)) as MM.
    { intro v. rewrite <- Znumtheory.Zmod_div_mod; [reflexivity|apply Z.pow_pos_nonneg; lia|apply Z.pow_pos_nonneg; lia|].
      exists 2. replace (p - 1) with (1 + (p - 2)) by lia. rewrite Z.pow_add_r by lia. reflexivity. }
    rewrite <- (MM (sig (d0 r))), X, MM, Z.shiftr_div_pow2 by lia.
    rewrite mod_div_pow by lia. f_equal. f_equal. lia.
Qed.
End Rest.
