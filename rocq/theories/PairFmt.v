(** * PairFmt.v -- pairs: Display *)
From Coq Require Import ZArith Reals List Bool Lia Lra String.
From Flocq Require Import Core.
From Verif Require Import Machine Sig SpecSig Ieee Parse Fmt Ppc Spec SpecStr SpecFmt Norm Arith Order Integral Int Special Algebra SpecPair Pair PairOps PairBase
  PairMore StrSyntax StrTop FmtTop FmtEdge FmtExact FmtBack.
Local Open Scope Z_scope.
Ltac Zify.zify_post_hook ::= idtac.

Section Fmt.
Variable F : Semantics.
Hypothesis HF : pair_ok F.
Local Notation p := (PRECISION F).
Local Notation W := (FallbackS F).
Let WO := W_ok F HF.

(** the number that is printed is the pair's, rounded to twice the precision *)
Theorem dd_fmt_normal : forall x w pr alternate, canonical_pair F x -> category (d0 x) = Normal -> 0 <= chosen_width w -> 1 <= chosen_precision W pr <= largest_precision ->
  exists s, dd_fmt F x w pr alternate = Ret s /\ printed (chosen_width w) (chosen_precision W pr) alternate (sign (d0 x)) (Rabs (operand F x)) s.
Proof.
  intros x w pr alternate Hx C Hw HP. pose proof (canonical_readable F x Hx) as R.
  destruct (to_fallback_reads F HF x R) as [x' [E Q]]. unfold dd_fmt. rewrite E. cbn [bind].
  pose proof (widened_category F HF x x' R Q) as Cx. rewrite C in Cx. destruct (widened_finite F x x' Q Hx) as [A [B [V S]]]. rewrite <- V, <- S.
  apply fmt_normal; assumption.
Qed.
Theorem dd_fmt_is : forall x w pr alternate, canonical_pair F x -> category (d0 x) = Normal -> 0 <= chosen_width w -> 1 <= chosen_precision W pr <= largest_precision ->
  forall s, dd_fmt F x w pr alternate = Ret s <-> printed_exactly (chosen_width w) (chosen_precision W pr) alternate (sign (d0 x)) (Rabs (operand F x)) s.
Proof.
  intros x w pr alternate Hx C Hw HP s. pose proof (canonical_readable F x Hx) as R.
  destruct (to_fallback_reads F HF x R) as [x' [E Q]]. unfold dd_fmt. rewrite E. cbn [bind].
  pose proof (widened_category F HF x x' R Q) as Cx. rewrite C in Cx. destruct (widened_finite F x x' Q Hx) as [A [B [V S]]]. rewrite <- V, <- S.
  apply fmt_is; assumption.
Qed.
Theorem dd_fmt_precision_0 : forall x w alternate, canonical_pair F x -> category (d0 x) = Normal -> 0 <= chosen_width w ->
  exists N e, expansion (Rabs (operand F x)) N e /\
  if N <? 10 ^ ((Z.log2 N + 1) * 59 / 196) then dd_fmt F x w (Some 0) alternate = Panic
  else exists k t, (bpow r10 (k - 1) <= Rabs (operand F x) < bpow r10 k)%R /\ layout (chosen_width w) 0 alternate 1 k t /\
    dd_fmt F x w (Some 0) alternate = Ret ((if sign (d0 x) then (45 :: nil) else nil) ++ t)%list.
Proof.
  intros x w alternate Hx C Hw. pose proof (canonical_readable F x Hx) as R.
  destruct (to_fallback_reads F HF x R) as [x' [E Q]]. unfold dd_fmt. rewrite E. cbn [bind].
  pose proof (widened_category F HF x x' R Q) as Cx. rewrite C in Cx. destruct (widened_finite F x x' Q Hx) as [A [B [V S]]]. rewrite <- V, <- S.
  apply fmt_precision_0; assumption.
Qed.
Theorem dd_fmt_too_precise : forall x w pr alternate, canonical_pair F x -> category (d0 x) = Normal -> largest_precision < chosen_precision W pr ->
  dd_fmt F x w pr alternate = Panic.
Proof.
  intros x w pr alternate Hx C HP. pose proof (canonical_readable F x Hx) as R.
  destruct (to_fallback_reads F HF x R) as [x' [E Q]]. unfold dd_fmt. rewrite E. cbn [bind].
  pose proof (widened_category F HF x x' R Q) as Cx. rewrite C in Cx. destruct (widened_finite F x x' Q Hx) as [A [B [V S]]].
  apply fmt_too_precise; assumption.
Qed.
Theorem dd_fmt_zero : forall x w pr alternate, canonical_pair F x -> category (d0 x) = Zero ->
  exists t, dd_fmt F x w pr alternate = Ret ((if sign (d0 x) then (45 :: nil) else nil) ++ t)%list /\ zero_text (chosen_width w) pr alternate t.
Proof.
  intros x w pr alternate Hx C. pose proof (canonical_readable F x Hx) as R.
  destruct (to_fallback_reads F HF x R) as [x' [E Q]]. unfold dd_fmt. rewrite E. cbn [bind].
  pose proof (widened_category F HF x x' R Q) as Cx. rewrite C in Cx. destruct (widened_finite F x x' Q Hx) as [A [B [V S]]]. rewrite <- S.
  apply fmt_zero. exact Cx.
Qed.
Theorem dd_fmt_special : forall x w pr alternate, readable F x ->
  (category (d0 x) = Infinity -> exists s, dd_fmt F x w pr alternate = Ret s /\ inf_text s (sign (d0 x))) /\
  (category (d0 x) = NaN -> dd_fmt F x w pr alternate = Ret (bytes "NaN")).
Proof.
  intros x w pr alternate R. destruct (to_fallback_reads F HF x R) as [x' [E Q]]. unfold dd_fmt. rewrite E. cbn [bind].
  pose proof (widened_category F HF x x' R Q) as Cx. destruct Q as [_ [S _]]. split; intro C; rewrite C in Cx.
  - rewrite <- S. apply fmt_infinity. exact Cx.
  - unfold fmt. rewrite Cx. reflexivity.
Qed.
(** Reading it back: pairs whose halves are not too far apart *)
Theorem dd_fmt_round_trip_digits : forall x w pr alternate m, dec_ok W -> canonical_pair F x -> category (d0 x) = Normal -> operand F x = pair_value F x ->
  0 <= chosen_width w -> 1 <= chosen_precision W pr < 2 ^ 22 -> 2 ^ (2 * PRECISION F) < 10 ^ (chosen_precision W pr - 1) -> m = NearestTiesToEven \/ m = NearestTiesToAway ->
  exists s st r, dd_fmt F x w pr alternate = Ret s /\ dd_from_str_r F s m = Ret (Ok (st, r)) /\ canonical_pair F r /\
    d0 r = d0 x /\ value F (d1 r) = value F (d1 x).
Proof.
  intros x w pr alternate m HD Hx C Eo Hw HP HP0 Hm. pose proof (canonical_readable F x Hx) as R.
  destruct (to_fallback_reads F HF x R) as [x' [E Q]]. unfold dd_fmt. rewrite E. cbn [bind].
  assert (HP1 : 2 ^ PRECISION W < 10 ^ (chosen_precision W pr - 1)) by (replace (PRECISION W) with (2 * PRECISION F) by (apply Z.mul_comm); exact HP0).
  pose proof (widened_category F HF x x' R Q) as Cx. rewrite C in Cx. destruct (widened_finite F x x' Q Hx) as [A [B [V S]]].
  destruct (fmt_round_trip_digits W x' w pr alternate m WO HD A Cx Hw HP HP1 Hm) as [s [st [Es Ep]]]. exists s, st.
  pose proof (F_ok F HF) as FO. destruct Hx as [[W0 W1] [[F0 F1] Vx]].
  assert (Sp : splittable F x').
  { unfold splittable. rewrite Cx, V, Eo, <- Vx. apply value_le_max; assumption. }
  destruct (map_ok F HF st x' A Sp) as [r [Er [Sr Hr]]]. rewrite Cx in Hr. destruct Hr as [Cr Vr]. rewrite V, Eo in Vr.
  exists r. split; [exact Es|]. split; [rewrite (dd_from_str_ok F s m st x' Ep), Er; reflexivity|]. split; [exact Cr|].
  destruct Cr as [[Wr0 Wr1] [[Fr0 Fr1] Vr0]]. rewrite Vr, <- Vx in Vr0. split.
  - apply (normal_ext F); try assumption; [|congruence].
    destruct Fr0 as [Q0|Q0]; [exact Q0|exfalso]. apply (normal_nonzero F (d0 x) W0 C). rewrite <- Vr0. apply value_zero. exact Q0.
  - unfold pair_value in Vr. lra.
Qed.
Theorem dd_fmt_round_trip : forall x w alternate m, dec_ok W -> canonical_pair F x -> category (d0 x) = Normal -> operand F x = pair_value F x ->
  0 <= chosen_width w -> m = NearestTiesToEven \/ m = NearestTiesToAway ->
  exists s st r, dd_fmt F x w None alternate = Ret s /\ dd_from_str_r F s m = Ret (Ok (st, r)) /\ canonical_pair F r /\
    d0 r = d0 x /\ value F (d1 r) = value F (d1 x).
Proof.
  intros x w alternate m HD Hx C Eo Hw Hm. pose proof (ok_prec W WO) as Kp. assert (E : PRECISION W = 2 * PRECISION F) by apply Z.mul_comm.
  pose proof (Z.div_mod (PRECISION W * 59) 196 ltac:(lia)). pose proof (Z.mod_pos_bound (PRECISION W * 59) 196 ltac:(lia)).
  apply dd_fmt_round_trip_digits; try assumption; unfold chosen_precision; [lia|].
  pose proof (default_digits (PRECISION W) ltac:(lia)) as D. unfold enough in D. rewrite <- E.
  replace (2 + PRECISION W * 59 / 196 - 1) with (1 + PRECISION W * 59 / 196) by lia. lia.
Qed.
End Fmt.
