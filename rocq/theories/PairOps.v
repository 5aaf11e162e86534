(** * PairOps.v -- the operations on pairs that are computed in the double-width
    format (src/ppc.rs:342-387, 431-433). *)
From Coq Require Import ZArith Reals List Bool Lia Lra Psatz.
From Flocq Require Import Core Plus_error.
From Verif Require Import Machine Sig SpecSig Ieee Parse Fmt Ppc Spec Norm Arith Special Order Int Scale Next Convert Integral Rem Fma Algebra SpecPair Pair.
Local Open Scope Z_scope.
Ltac Zify.zify_post_hook ::= idtac.

Section Ops.
Variable F : Semantics.
Hypothesis HF : pair_ok F.
Notation W := (FallbackS F).
Notation p := (PRECISION F).
Let WO := W_ok F HF.
Let FO := F_ok F HF.

Lemma operand_zero : forall x, canonical_pair F x -> (category (d0 x) = Zero <-> operand F x = 0%R).
Proof.
  intros x H. pose proof (F_valid F HF) as VF. pose proof (W_valid F HF) as VW. pose proof NE_valid as VN. pose proof H as [[H0 H1] [[F0 F1] V]]. split.
  - intro C. unfold operand. rewrite (value_zero F _ C) in V. unfold pair_value in *. rewrite (value_zero F _ C), Rplus_0_l in *.
    rewrite (rounded_format F) in V by (apply value_format; [exact FO|assumption|assumption]).
    rewrite <- V. unfold rounded. apply round_0. assumption.
  - intro Z. unfold operand, rounded, pair_value in Z.
    assert (forall y, wf F y -> finite y -> generic_format r2 (fexp W) (value F y)) as G.
    { intros y Hy Fy. apply (contains_representable F W _ FO WO (W_contains_F F HF) (finite_representable F y FO Hy Fy)). }
    assert (Exp_not_FTZ (fexp W)) by (apply (@monotone_exp_not_FTZ _ VW); apply FLT_exp_monotone).
    destruct (Req_dec (value F (d0 x) + value F (d1 x)) 0) as [E|N].
    + unfold pair_value in V. rewrite E in V. unfold rounded in V. rewrite round_0 in V by assumption.
      destruct F0 as [N|]; [|assumption]. destruct (normal_nonzero F _ H0 N V).
    + destruct (round_plus_neq_0 r2 (fexp W) (rnd_of NearestTiesToEven) _ _ (G _ H0 F0) (G _ H1 F1) N Z).
Qed.

Lemma W_nan_sig : forall w, wf W w -> category w = NaN -> 0 < sig w < 2 ^ (2 * p - 1).
Proof.
  intros w Hw C. pose proof (proj2 (proj2 Hw)) as N. rewrite C in N. unfold nan_sig in N.
  change (NONFINITE_BEHAVIOR W) with IEEE754 in N. change (X87 W) with false in N. rewrite (W_prec F) in N. exact N.
Qed.
Lemma F_nan_sig : forall w, wf F w -> category w = NaN -> 0 < sig w < 2 ^ (p - 1).
Proof.
  intros w Hw C. pose proof (proj2 (proj2 Hw)) as N. rewrite C in N. unfold nan_sig in N.
  rewrite (pok_ieee F HF), (pok_x87 F HF) in N. exact N.
Qed.

(** ** What the fallback sees *)
Theorem to_fallback_reads : forall x, readable F x -> exists w, to_fallback F x = Ret w /\ widened F x w.
Proof.
  intros x H. unfold readable, widened in *. destruct (category (d0 x)) eqn:C.
  - destruct (to_fallback_infinite F HF x C) as [w [E [A [B D]]]]. exists w. tauto.
  - destruct H as [H S]. pose proof (to_fallback_nan F HF x H C) as Q. rewrite S in Q.
    destruct Q as [w [E [[A [B D]] [G I]]]]. exists w. tauto.
  - destruct (to_fallback_canonical F HF x H) as [w [E [A [B [D G]]]]]. exists w. tauto.
  - destruct (to_fallback_canonical F HF x H) as [w [E [A [B [D G]]]]]. exists w. tauto.
Qed.
Theorem to_fallback_signaling : forall x, wf F (d0 x) -> category (d0 x) = NaN -> signaling F (d0 x) = true ->
  to_fallback F x = Panic.
Proof. intros x H C S. pose proof (to_fallback_nan F HF x H C) as Q. rewrite S in Q. exact Q. Qed.

Lemma widened_finite : forall x w, widened F x w -> canonical_pair F x ->
  wf W w /\ finite w /\ value W w = operand F x /\ sign w = sign (d0 x).
Proof.
  intros x w [A [B C]] [_ [[[D|D] _] _]]; rewrite D in C; tauto.
Qed.
Lemma widened_category : forall x w, readable F x -> widened F x w -> category w = category (d0 x).
Proof.
  intros x w R [A [B C]]. unfold readable in R. destruct (category (d0 x)) eqn:D; try tauto.
  - destruct C as [Fw V]. destruct Fw as [N|Z]; [exact N|]. rewrite (value_zero W w Z) in V. symmetry in V.
    apply (operand_zero x R) in V. congruence.
  - destruct C as [Fw V]. destruct Fw as [N|Z]; [|exact Z].
    pose proof (normal_nonzero W w A N) as Q. rewrite V in Q. destruct Q. apply (operand_zero x R), D.
Qed.
Lemma canonical_readable : forall x, canonical_pair F x -> readable F x.
Proof. intros x H. pose proof H as [_ [[[D|D] _] _]]; unfold readable; rewrite D; exact H. Qed.
Lemma canonical_normal_cat : forall x, canonical_pair F x -> operand F x <> 0%R -> category (d0 x) = Normal.
Proof. intros x H N. pose proof H as [_ [[[D|D] _] _]]; [exact D|]. destruct N. apply operand_zero; assumption. Qed.
Lemma widened_quiet : forall x w, readable F x -> widened F x w -> signaling W w = false.
Proof.
  intros x w R Q. pose proof (widened_category x w R Q) as C. destruct Q as [_ [_ Q]].
  destruct (category (d0 x)) eqn:D; [| tauto | |]; unfold signaling; rewrite C; reflexivity.
Qed.

(** small results fit *)
Lemma splittable_small : forall f, finite f -> (Rabs (value W f) <= max_finite F)%R -> splittable F f.
Proof.
  intros f Ff B. unfold splittable. destruct Ff as [->| ->]; (apply rounded_le_max; [exact FO|exact B]).
Qed.

(** reading back special results *)
Lemma split_special_inf : forall f r g, is_special W Infinity g f -> split_of F f r -> pair_special F Infinity g r.
Proof.
  intros f r g [A [B C]] [S Q]. rewrite B in Q. destruct Q as [Q1 Q2]. rewrite C in Q1. split; [exact Q1|]. apply Q2.
Qed.
Lemma split_special_zero : forall f r g, is_special W Zero g f -> split_of F f r -> pair_special F Zero g r.
Proof.
  intros f r g [A [B C]] [S Q]. rewrite B in Q. destruct Q as [H V]. rewrite (value_zero W f B) in V.
  pose proof H as [[H0 H1] [[F0 F1] E]]. rewrite V in E. unfold rounded in E.
  pose proof NE_valid. rewrite round_0 in E by assumption.
  assert (category (d0 r) = Zero) as C0 by (destruct F0 as [N|]; [destruct (normal_nonzero F _ H0 N E)|assumption]).
  split.
  - split; [exact H0|]. split; [exact C0|congruence].
  - unfold pair_value in V. rewrite E, Rplus_0_l in V. destruct F1 as [N|]; [destruct (normal_nonzero F _ H1 N V)|assumption].
Qed.
Lemma split_nan : forall f r, default_nan W f -> split_of F f r -> pair_nan F r.
Proof.
  intros f r [A [B C]] [S Q]. rewrite B in Q. destruct Q as [Q1 [Q2 _]]. split; [exact Q1|]. apply Q2.
Qed.
Lemma split_same_nan : forall x w r, readable F x -> category (d0 x) = NaN -> widened F x w -> split_of F w r -> pair_same_nan x r.
Proof.
  intros x w r R C Q [S T]. pose proof (widened_category x w R Q) as Cw. destruct Q as [A [B Q]]. unfold readable in R.
  rewrite C in Cw, Q, R. rewrite Cw in T. destruct Q as [_ [Sg Q]]. destruct T as [[T1 [T2 T3]] [T4 T5]]. destruct R as [R _].
  pose proof (F_nan_sig _ R C). pose proof (F_nan_sig _ T1 T2). pose proof (ok_prec F FO).
  rewrite Q, Z.shiftr_shiftl_l, Z.sub_diag, Z.shiftl_0_r in T5 by lia.
  rewrite !Z.mod_small in T5 by lia.
  split; [exact T2|]. split; [congruence|]. split; [exact T5|]. apply T4.
Qed.
Lemma special_splittable : forall f, category f = Infinity \/ category f = Zero \/ (category f = NaN /\ signaling W f = false) -> splittable F f.
Proof.
  intros f [C|[C|[C S]]].
  - unfold splittable. rewrite C. exact I.
  - apply splittable_small; [right; exact C|]. rewrite (value_zero W f C), Rabs_R0.
    apply Rle_trans with (min_normal F); [unfold min_normal; apply bpow_ge_0|apply min_normal_le_max, FO].
  - unfold splittable. rewrite C. exact S.
Qed.

Lemma map_ok : forall st f, wf W f -> splittable F f -> exists r, map_from_fallback F (Ret (st, f)) = Ret (st, r) /\ split_of F f r.
Proof.
  intros st f Hf S. unfold map_from_fallback. cbn [bind]. destruct (from_fallback_spec F HF f Hf) as [A _].
  destruct (A S) as [r [-> R]]. exists r. split; [reflexivity|exact R].
Qed.

Ltac read x H w Q := destruct (to_fallback_reads x H) as [w [-> Q]]; cbn [bind].

(** ** Division *)
Theorem dd_div_r_finite : forall x y m, canonical_pair F x -> canonical_pair F y -> operand F y <> 0%R ->
  via_wide F (fun st f => correctly_rounded W m (operand F x / operand F y) (xorb (sign (d0 x)) (sign (d0 y))) (st, f))
    (dd_div_r F x y m).
Proof.
  intros x y m Hx Hy Ny. unfold dd_div_r. read x (canonical_readable x Hx) x' Qx. read y (canonical_readable y Hy) y' Qy.
  pose proof (widened_category _ _ (canonical_readable y Hy) Qy) as Cy. rewrite (canonical_normal_cat y Hy Ny) in Cy.
  destruct (widened_finite x x' Qx Hx) as [A1 [A2 [A3 A4]]]. destruct (widened_finite y y' Qy Hy) as [B1 [B2 [B3 B4]]].
  destruct (div_r_finite W x' y' m WO A1 B1 A2 Cy (sides W _ _ eq_refl)) as [[st f] [-> D]]. rewrite A3, B3, A4, B4 in D.
  apply via_wide_intro; [exact HF|exact (proj1 D)|exact D].
Qed.

Theorem dd_div_r_special : forall x y m, readable F x -> readable F y ->
  category (d0 x) <> NaN -> category (d0 y) <> NaN ->
  category (d0 x) = Infinity \/ category (d0 y) = Infinity \/ category (d0 y) = Zero ->
  exists st r, dd_div_r F x y m = Ret (st, r) /\
    let g := xorb (sign (d0 x)) (sign (d0 y)) in
    match category (d0 x), category (d0 y) with
    | Infinity, Infinity | Zero, Zero => st = INVALID_OP /\ pair_nan F r
    | Infinity, _ => st = OK /\ pair_special F Infinity g r
    | _, Infinity => st = OK /\ pair_special F Zero g r
    | _, _ => st = DIV_BY_ZERO /\ pair_special F Infinity g r
    end.
Proof.
  intros x y m Hx Hy Nx Ny Sp. unfold dd_div_r. read x Hx x' Qx. read y Hy y' Qy.
  pose proof (widened_category _ _ Hx Qx) as Cx. pose proof (widened_category _ _ Hy Qy) as Cy.
  pose proof Qx as [A1 [A4 _]]. pose proof Qy as [B1 [B4 _]]. rewrite <- Cx, <- Cy in *.
  destruct (div_r_special W x' y' m WO A1 B1 Nx Ny Sp) as [st [f [-> D]]]. rewrite A4, B4 in D. cbv zeta in *.
  change (infinity_of W) with Infinity in D.
  assert (wf W f /\ splittable F f) as [Hf Sf].
  { destruct (category x'), (category y'); try tauto; try (exfalso; intuition discriminate);
      (destruct D as [_ D]; split; [apply D|]; apply special_splittable; destruct D as [_ [D1 D2]]; rewrite D1; tauto). }
  destruct (map_ok st f Hf Sf) as [r [E S]]. exists st, r. split; [exact E|].
  destruct (category x'), (category y'); try tauto; try (exfalso; intuition discriminate); destruct D as [D1 D2]; (split; [exact D1|]);
    first [apply (split_nan f r D2 S)|apply (split_special_inf f r _ D2 S)|apply (split_special_zero f r _ D2 S)].
Qed.

Lemma dd_binop_nan : forall (op : Float -> Float -> outcome (Z * Float)) x y, readable F x -> readable F y ->
  (forall u v, category u = NaN \/ category v = NaN -> op u v = Ret (invalid_if (signaling W u || signaling W v), quieted W (first_nan u v))) ->
  category (d0 x) = NaN \/ category (d0 y) = NaN ->
  exists r, (let! u := to_fallback F x in let! v := to_fallback F y in map_from_fallback F (op u v)) = Ret (OK, r) /\
    pair_same_nan (first_nan_pair x y) r.
Proof.
  intros op x y Hx Hy Op N. read x Hx x' Qx. read y Hy y' Qy.
  pose proof (widened_category _ _ Hx Qx) as Cx. pose proof (widened_category _ _ Hy Qy) as Cy.
  rewrite Op by (rewrite Cx, Cy; exact N).
  rewrite (widened_quiet x x' Hx Qx), (widened_quiet y y' Hy Qy). cbn [orb invalid_if].
  assert (exists z z', first_nan x' y' = z' /\ first_nan_pair x y = z /\ readable F z /\ widened F z z' /\ category (d0 z) = NaN) as [z [z' [-> [-> [Hz [Qz Cz]]]]]].
  { unfold first_nan, first_nan_pair. rewrite Cx. destruct (category (d0 x)) eqn:D.
    - exists y, y'. destruct N; [discriminate|]. tauto.
    - exists x, x'. tauto.
    - exists y, y'. destruct N; [discriminate|]. tauto.
    - exists y, y'. destruct N; [discriminate|]. tauto. }
  pose proof (widened_category _ _ Hz Qz) as Cz'. rewrite Cz in Cz'. pose proof (widened_quiet z z' Hz Qz) as Sz.
  rewrite (quieted_of_quiet W z' WO Cz' Sz).
  destruct (map_ok OK z' (proj1 Qz) (special_splittable z' (or_intror (or_intror (conj Cz' Sz))))) as [r [E S]].
  exists r. split; [exact E|]. exact (split_same_nan z z' r Hz Cz Qz S).
Qed.

Theorem dd_div_r_nan : forall x y m, readable F x -> readable F y -> category (d0 x) = NaN \/ category (d0 y) = NaN ->
  exists r, dd_div_r F x y m = Ret (OK, r) /\ pair_same_nan (first_nan_pair x y) r.
Proof.
  intros x y m Hx Hy N. apply (dd_binop_nan (fun u v => div_r W u v m)); [assumption|assumption| |assumption].
  intros u v Q. apply div_r_nan; [exact WO|exact Q].
Qed.
Theorem dd_c_fmod_nan : forall x y, readable F x -> readable F y -> category (d0 x) = NaN \/ category (d0 y) = NaN ->
  exists r, dd_c_fmod F x y = Ret (OK, r) /\ pair_same_nan (first_nan_pair x y) r.
Proof.
  intros x y Hx Hy N. apply (dd_binop_nan (fun u v => c_fmod W u v)); [assumption|assumption| |assumption].
  intros u v Q. apply c_fmod_nan; [exact WO|exact Q].
Qed.
Theorem dd_ieee_rem_nan : forall x y, readable F x -> readable F y -> category (d0 x) = NaN \/ category (d0 y) = NaN ->
  exists r, dd_ieee_rem F x y = Ret (OK, r) /\ pair_same_nan (first_nan_pair x y) r.
Proof.
  intros x y Hx Hy N. apply (dd_binop_nan (fun u v => ieee_rem W u v)); [assumption|assumption| |assumption].
  intros u v Q. apply ieee_rem_nan; [exact WO|exact Q].
Qed.

(** ** Remainders *)
Theorem dd_c_fmod_finite : forall x y, canonical_pair F x -> canonical_pair F y -> operand F y <> 0%R ->
  via_wide F (fun st f => st = OK /\ finite f /\ sign f = sign (d0 x) /\
      value W f = (operand F x - IZR (Ztrunc (operand F x / operand F y)) * operand F y)%R /\
      (Rabs (value W f) < Rabs (operand F y))%R)
    (dd_c_fmod F x y).
Proof.
  intros x y Hx Hy Ny. unfold dd_c_fmod. read x (canonical_readable x Hx) x' Qx. read y (canonical_readable y Hy) y' Qy.
  pose proof (widened_category _ _ (canonical_readable y Hy) Qy) as Cy. rewrite (canonical_normal_cat y Hy Ny) in Cy.
  destruct (widened_finite x x' Qx Hx) as [A1 [A2 [A3 A4]]]. destruct (widened_finite y y' Qy Hy) as [B1 [B2 [B3 B4]]].
  destruct (c_fmod_finite W x' y' WO A1 B1 A2 Cy) as [f [-> [D1 [D2 [D3 [D4 D5]]]]]]. rewrite A3, B3 in D3. rewrite B3 in D5. rewrite A4 in D4.
  apply via_wide_intro; [exact HF|exact D1|tauto].
Qed.
Theorem dd_ieee_rem_finite : forall x y, canonical_pair F x -> canonical_pair F y -> operand F y <> 0%R ->
  via_wide F (fun st f => exists n, st = OK /\ finite f /\
      value W f = (operand F x - IZR n * operand F y)%R /\
      (2 * Rabs (value W f) <= Rabs (operand F y))%R /\
      (2 * Rabs (value W f) = Rabs (operand F y) -> Z.even n = true)%R /\
      (value W f = 0%R -> sign f = sign (d0 x)))
    (dd_ieee_rem F x y).
Proof.
  intros x y Hx Hy Ny. unfold dd_ieee_rem. read x (canonical_readable x Hx) x' Qx. read y (canonical_readable y Hy) y' Qy.
  pose proof (widened_category _ _ (canonical_readable y Hy) Qy) as Cy. rewrite (canonical_normal_cat y Hy Ny) in Cy.
  destruct (widened_finite x x' Qx Hx) as [A1 [A2 [A3 A4]]]. destruct (widened_finite y y' Qy Hy) as [B1 [B2 [B3 B4]]].
  destruct (ieee_rem_finite W x' y' WO A1 B1 A2 Cy) as [f [n [-> D]]]. rewrite A3, B3, A4 in D.
  apply via_wide_intro; [exact HF|exact (proj1 D)|]. exists n. tauto.
Qed.
Lemma dd_rem_special : forall (op : Float -> Float -> outcome (Z * Float)) x y, readable F x -> readable F y ->
  (forall u v, wf W u -> wf W v -> category u <> NaN -> category v <> NaN ->
     category u = Infinity \/ category v = Zero ->
     exists st f, op u v = Ret (st, f) /\ st = INVALID_OP /\ default_nan W f) ->
  category (d0 x) <> NaN -> category (d0 y) <> NaN -> category (d0 x) = Infinity \/ category (d0 y) = Zero ->
  exists r, (let! u := to_fallback F x in let! v := to_fallback F y in map_from_fallback F (op u v)) = Ret (INVALID_OP, r) /\
    pair_nan F r.
Proof.
  intros op x y Hx Hy Op Nx Ny Sp. read x Hx x' Qx. read y Hy y' Qy.
  pose proof (widened_category _ _ Hx Qx) as Cx. pose proof (widened_category _ _ Hy Qy) as Cy. rewrite <- Cx, <- Cy in *.
  destruct (Op x' y' (proj1 Qx) (proj1 Qy) Nx Ny Sp) as [st [f [-> [-> D]]]].
  destruct (map_ok INVALID_OP f (proj1 D) (special_splittable f (or_intror (or_intror (proj2 D))))) as [r [E S]].
  exists r. split; [exact E|]. exact (split_nan f r D S).
Qed.
Theorem dd_c_fmod_special : forall x y, readable F x -> readable F y ->
  category (d0 x) <> NaN -> category (d0 y) <> NaN -> category (d0 x) = Infinity \/ category (d0 y) = Zero ->
  exists r, dd_c_fmod F x y = Ret (INVALID_OP, r) /\ pair_nan F r.
Proof.
  intros x y Hx Hy Nx Ny Sp. apply (dd_rem_special (fun u v => c_fmod W u v)); try assumption.
  intros u v Hu Hv Nu Nv Q. destruct (c_fmod_special W u v WO Hu Hv Nu Nv) as [st [f [E D]]]; [tauto|].
  exists st, f. split; [exact E|]. destruct (category u), (category v); try tauto; exfalso; intuition discriminate.
Qed.
Theorem dd_ieee_rem_special : forall x y, readable F x -> readable F y ->
  category (d0 x) <> NaN -> category (d0 y) <> NaN -> category (d0 x) = Infinity \/ category (d0 y) = Zero ->
  exists r, dd_ieee_rem F x y = Ret (INVALID_OP, r) /\ pair_nan F r.
Proof.
  intros x y Hx Hy Nx Ny Sp. apply (dd_rem_special (fun u v => ieee_rem W u v)); try assumption.
  intros u v Hu Hv Nu Nv Q. destruct (ieee_rem_special W u v WO Hu Hv Nu Nv) as [st [f [E D]]]; [tauto|].
  exists st, f. split; [exact E|]. destruct (category u), (category v); try tauto; exfalso; intuition discriminate.
Qed.
(** a finite number modulo an infinity is itself *)
Lemma dd_rem_infinity : forall (op : Float -> Float -> outcome (Z * Float)) x y, canonical_pair F x -> readable F y ->
  (forall u v, wf W u -> wf W v -> category u <> NaN -> category v <> NaN -> category u <> Infinity ->
     category v = Infinity -> op u v = Ret (OK, u)) ->
  category (d0 y) = Infinity ->
  via_wide F (fun st f => st = OK /\ finite f /\ value W f = operand F x /\ sign f = sign (d0 x))
    (let! u := to_fallback F x in let! v := to_fallback F y in map_from_fallback F (op u v)).
Proof.
  intros op x y Hx Hy Op C. read x (canonical_readable x Hx) x' Qx. read y Hy y' Qy.
  pose proof (widened_category _ _ Hy Qy) as Cy. destruct (widened_finite x x' Qx Hx) as [A1 [A2 [A3 A4]]].
  rewrite (Op x' y' A1 (proj1 Qy)); [|destruct A2; congruence|congruence|destruct A2; congruence|congruence].
  apply via_wide_intro; [exact HF|exact A1|tauto].
Qed.
Theorem dd_c_fmod_infinity : forall x y, canonical_pair F x -> readable F y -> category (d0 y) = Infinity ->
  via_wide F (fun st f => st = OK /\ finite f /\ value W f = operand F x /\ sign f = sign (d0 x)) (dd_c_fmod F x y).
Proof.
  intros x y Hx Hy C. apply (dd_rem_infinity (fun u v => c_fmod W u v)); try assumption.
  intros u v Hu Hv Nu Nv Iu Iv. destruct (c_fmod_special W u v WO Hu Hv Nu Nv) as [st [f [E D]]]; [tauto|].
  rewrite E, Iv in *. destruct (category u); try tauto; destruct D as [-> ->]; reflexivity.
Qed.
Theorem dd_ieee_rem_infinity : forall x y, canonical_pair F x -> readable F y -> category (d0 y) = Infinity ->
  via_wide F (fun st f => st = OK /\ finite f /\ value W f = operand F x /\ sign f = sign (d0 x)) (dd_ieee_rem F x y).
Proof.
  intros x y Hx Hy C. apply (dd_rem_infinity (fun u v => ieee_rem W u v)); try assumption.
  intros u v Hu Hv Nu Nv Iu Iv. destruct (ieee_rem_special W u v WO Hu Hv Nu Nv) as [st [f [E D]]]; [tauto|].
  rewrite E, Iv in *. destruct (category u); try tauto; destruct D as [-> ->]; reflexivity.
Qed.

(** ** Fused multiply-add *)
Theorem dd_mul_add_r_finite : forall x y z m, canonical_pair F x -> canonical_pair F y -> canonical_pair F z ->
  pair_fma_safe F x y z ->
  via_wide F (fun st f => correctly_rounded W m (operand F x * operand F y + operand F z)
      (fma_zero_sign (xorb (sign (d0 x)) (sign (d0 y))) (d0 z) m) (st, f))
    (dd_mul_add_r F x y z m).
Proof.
  intros x y z m Hx Hy Hz Sf. unfold dd_mul_add_r. read x (canonical_readable x Hx) x' Qx. read y (canonical_readable y Hy) y' Qy.
  read z (canonical_readable z Hz) z' Qz.
  pose proof (widened_category _ _ (canonical_readable z Hz) Qz) as Cz.
  destruct (widened_finite x x' Qx Hx) as [A1 [A2 [A3 A4]]]. destruct (widened_finite y y' Qy Hy) as [B1 [B2 [B3 B4]]].
  destruct (widened_finite z z' Qz Hz) as [D1 [D2 [D3 D4]]].
  destruct (mul_add_r_finite W x' y' z' m WO A1 B1 D1 A2 B2 D2) as [[st f] [-> E]].
  - unfold fma_safe. unfold pair_fma_safe in Sf. rewrite A3, B3, D3, A4, B4, D4, Cz. exact Sf.
  - apply sides. reflexivity.
  - rewrite A3, B3, D3, A4, B4 in E. unfold fma_zero_sign in *. rewrite D4 in E.
    apply via_wide_intro; [exact HF|exact (proj1 E)|exact E].
Qed.

(** ** Rounding to an integer, neighbours, conversions *)
Theorem dd_round_to_integral_finite : forall x m, canonical_pair F x ->
  via_wide F (fun st f => finite f /\ value W f = IZR (rnd_of m (operand F x)) /\ sign f = sign (d0 x) /\
      (value W f = operand F x -> st = OK) /\ (value W f <> operand F x -> st = INEXACT))
    (dd_round_to_integral F x m).
Proof.
  intros x m Hx. unfold dd_round_to_integral. read x (canonical_readable x Hx) x' Qx.
  destruct (widened_finite x x' Qx Hx) as [A1 [A2 [A3 A4]]].
  destruct (round_to_integral_finite W x' m WO A1 A2) as [st [f [-> D]]]. rewrite A3, A4 in D.
  apply via_wide_intro; [exact HF|exact (proj1 D)|tauto].
Qed.
Theorem dd_round_to_integral_special : forall x m, readable F x -> ~ finite (d0 x) ->
  exists r, dd_round_to_integral F x m = Ret (OK, r) /\
    match category (d0 x) with
    | NaN => pair_same_nan x r
    | _ => pair_special F Infinity (sign (d0 x)) r
    end.
Proof.
  intros x m Hx Nf. unfold dd_round_to_integral. read x Hx x' Qx. pose proof (widened_category _ _ Hx Qx) as Cx.
  rewrite (round_to_integral_special W x' m WO); [|unfold finite in *; rewrite Cx; exact Nf].
  assert (Cs : category x' = Infinity \/ category x' = NaN).
  { rewrite Cx. destruct (category (d0 x)) eqn:D; [left; reflexivity|right; reflexivity| |]; exfalso; apply Nf; unfold finite; rewrite D; tauto. }
  pose proof (widened_quiet x x' Hx Qx) as Sx.
  assert (splittable F x') as Sp by (apply special_splittable; tauto).
  destruct (map_ok OK x' (proj1 Qx) Sp) as [r [E S]]. exists r. destruct Cs as [C|C].
  - rewrite C. split; [exact E|]. rewrite <- Cx, C. apply (split_special_inf x' r); [|exact S]. destruct Qx as [A [B _]]. split; [exact A|]. split; assumption.
  - rewrite C, Sx, (quieted_of_quiet W x' WO C Sx). split; [exact E|]. rewrite <- Cx, C. apply (split_same_nan x x' r Hx); congruence || assumption.
Qed.

Lemma widened_ext : forall x w, readable F x -> widened F x w -> ext_of W w = pair_ext F x.
Proof.
  intros x w R Q. pose proof (widened_category _ _ R Q) as C. unfold ext_of, pair_ext. rewrite C. destruct Q as [_ [B Q]].
  destruct (category (d0 x)); try rewrite B; try reflexivity; rewrite (proj2 Q); reflexivity.
Qed.
Theorem dd_next_up_spec : forall x a, readable F x -> pair_ext F x = Some a ->
  via_wide F (fun st f => st = OK /\ least_above W a f /\ (finite f -> value W f = 0%R -> sign f = true)) (dd_next_up F x).
Proof.
  intros x a Hx E. unfold dd_next_up. read x Hx x' Qx. rewrite <- (widened_ext x x' Hx Qx) in E.
  destruct (next_up_spec W x' a WO (proj1 Qx) E) as [r [-> D]]. apply via_wide_intro; [exact HF|exact (proj1 (proj1 D))|tauto].
Qed.
Theorem dd_next_up_nan : forall x, readable F x -> category (d0 x) = NaN ->
  exists r, dd_next_up F x = Ret (OK, r) /\ pair_same_nan x r.
Proof.
  intros x Hx C. unfold dd_next_up. read x Hx x' Qx. pose proof (widened_category _ _ Hx Qx) as Cx. rewrite C in Cx.
  pose proof (widened_quiet x x' Hx Qx) as Sx. destruct (next_up_nan W x' WO (proj1 Qx) Cx) as [r [-> D]]. rewrite Sx in D |- *. subst r. cbn [invalid_if].
  destruct (map_ok OK x' (proj1 Qx) (special_splittable x' (or_intror (or_intror (conj Cx Sx))))) as [r [E S]].
  exists r. split; [exact E|]. exact (split_same_nan x x' r Hx C Qx S).
Qed.

Theorem dd_to_u128_r_spec : forall x w m, canonical_pair F x -> 1 <= w <= 128 ->
  exists st n ex, dd_to_u128_r F x w m = Ret (st, n, ex) /\
    let k := rnd_of m (operand F x) in
    (k < 0 -> st = INVALID_OP /\ n = 0) /\
    (2 ^ w - 1 < k -> st = INVALID_OP /\ n = 2 ^ w - 1) /\
    (0 <= k <= 2 ^ w - 1 -> n = k /\ (IZR k = operand F x -> st = OK) /\ (IZR k <> operand F x -> st = INEXACT)).
Proof.
  intros x w m Hx Hw. unfold dd_to_u128_r. read x (canonical_readable x Hx) x' Qx.
  destruct (widened_finite x x' Qx Hx) as [A1 [A2 [A3 A4]]].
  destruct (to_u128_r_spec W x' w m WO A1 Hw) as [st [n [ex [-> [D _]]]]]. unfold converted_to_int in D. rewrite A3 in D.
  exists st, n, ex. split; [reflexivity|]. destruct A2 as [C|C]; rewrite C in D; exact D.
Qed.
Theorem dd_from_u128_r_spec : forall n m, 0 <= n < 2 ^ 128 ->
  via_wide F (fun st f => correctly_rounded W m (IZR n) false (st, f)) (dd_from_u128_r F n m).
Proof.
  intros n m H. unfold dd_from_u128_r. destruct (from_u128_r_spec W n m WO H) as [[st f] [-> D]].
  apply via_wide_intro; [exact HF|exact (proj1 D)|exact D].
Qed.

Theorem dd_get_exact_inverse_spec : forall x, canonical_pair F x ->
  exists o, (o = Panic \/ exists q, o = Ret q) /\ dd_get_exact_inverse F x = o /\
    match o with
    | Ret (Some r) => (min_normal W <= Rabs (operand F x))%R /\ canonical_pair F r /\
        (min_normal W <= Rabs (pair_value F r))%R /\ (operand F x * pair_value F r = 1)%R
    | Ret None => ~ ((min_normal W <= Rabs (operand F x))%R /\
        exists y, representable W y /\ (min_normal W <= Rabs y)%R /\ (operand F x * y = 1)%R)
    | _ => exists y, representable W y /\ (operand F x * y = 1)%R /\ (max_finite F < Rabs (rounded F NearestTiesToEven y))%R
    end.
Proof.
  intros x Hx. unfold dd_get_exact_inverse. read x (canonical_readable x Hx) x' Qx.
  destruct (widened_finite x x' Qx Hx) as [A1 [A2 [A3 A4]]].
  destruct (get_exact_inverse_spec W x' WO A1) as [o [-> D]]. cbn [bind]. rewrite A3 in D. destruct o as [y|].
  - destruct D as [_ [D1 [D2 [D3 [D4 [D5 D6]]]]]]. destruct (from_fallback_spec F HF y D1) as [P Q].
    destruct (Rle_or_lt (Rabs (rounded F NearestTiesToEven (value W y))) (max_finite F)) as [B|B].
    + destruct P as [r [-> [_ S]]]; [unfold splittable; rewrite D2; exact B|]. rewrite D2 in S. destruct S as [S1 S2]. cbn [bind].
      eexists. split; [right; eexists; reflexivity|]. split; [reflexivity|]. cbv beta iota. rewrite S2. tauto.
    + rewrite Q; [|unfold splittable; rewrite D2; lra]. cbn [bind].
      eexists. split; [left; reflexivity|]. split; [reflexivity|]. cbv beta iota. exists (value W y).
      split; [apply finite_representable; [exact WO|exact D1|left; exact D2]|]. split; [exact D5|exact B].
  - eexists. split; [right; eexists; reflexivity|]. split; [reflexivity|]. cbv beta iota. tauto.
Qed.

(** ** Signaling NaNs *)
Theorem dd_signaling_panics : forall x y m w, wf F (d0 x) -> category (d0 x) = NaN -> signaling F (d0 x) = true ->
  dd_div_r F x y m = Panic /\ dd_c_fmod F x y = Panic /\ dd_ieee_rem F x y = Panic /\
  dd_mul_add_r F x y y m = Panic /\ dd_round_to_integral F x m = Panic /\ dd_next_up F x = Panic /\
  dd_to_u128_r F x w m = Panic /\ dd_get_exact_inverse F x = Panic /\
  (forall wd pr alt, dd_fmt F x wd pr alt = Panic).
Proof.
  intros x y m w H C S. pose proof (to_fallback_signaling x H C S) as E.
  unfold dd_div_r, dd_c_fmod, dd_ieee_rem, dd_mul_add_r, dd_round_to_integral, dd_next_up, dd_to_u128_r, dd_get_exact_inverse, dd_fmt.
  rewrite E. cbn [bind]. tauto.
Qed.
End Ops.
