(** * TextOrder.v -- reading and printing, and the order of the numbers *)
From Coq Require Import ZArith Reals List Bool Lia Lra ZifyBool String.
From Flocq Require Import Core.
From Verif Require Import Machine Sig SpecSig Limbs SigProofs Ieee Spec Formats Norm Arith Int Integral Algebra Special Order PairBase PairMore
  Parse SpecStr StrHex StrScan StrSyntax StrNum StrAtt StrLoop StrDecimal StrCell StrTop Fmt FmtNum SpecFmt FmtTop FmtBack
  SpecPair Ppc Pair PairOps PairFmt Samples StrSamples FmtRefute DecBack.
Import ListNotations.
Local Open Scope Z_scope.
Ltac Zify.zify_post_hook ::= idtac.
Local Notation length := List.length.

(** ** Reading *)
Theorem from_str_dec_monotone : forall S s s' g g' x x' m, sem_ok S -> dec_ok S -> dec_text s g x -> dec_text s' g' x' ->
  len s < 2 ^ 25 -> len s' < 2 ^ 25 -> m = NearestTiesToEven \/ m = NearestTiesToAway -> (x <= x')%R ->
  exists st f st' f', from_str_r S s m = Ret (Ok (st, f)) /\ from_str_r S s' m = Ret (Ok (st', f')) /\
    (category f <> NaN -> category f' <> NaN -> exists a b, ext_of S f = Some a /\ ext_of S f' = Some b /\ ext_le a b).
Proof.
  intros S s s' g g' x x' m HS HD T T' L L' Hm H.
  destruct (from_str_dec_nearest S s g x m HS HD T L Hm) as [st [f [E [t [D _]]]]].
  destruct (from_str_dec_nearest S s' g' x' m HS HD T' L' Hm) as [st' [f' [E' [t' [D' _]]]]].
  exists st, f, st', f'. split; [exact E|]. split; [exact E'|]. intros N N'.
  exact (delivers_monotone _ _ S m x x' g g' t t' f f' HS (fun _ _ => eq_refl) D D' N N' H).
Qed.
Theorem from_str_hex_monotone : forall S s s' g g' x x' m, sem_ok S -> PRECISION S <= 125 -> hex_text s g x -> hex_text s' g' x' ->
  len s + 2 ^ 20 <= 2 ^ 29 -> len s' + 2 ^ 20 <= 2 ^ 29 -> (x <= x')%R ->
  exists st f st' f', from_str_r S s m = Ret (Ok (st, f)) /\ from_str_r S s' m = Ret (Ok (st', f')) /\
    (category f <> NaN -> category f' <> NaN -> exists a b, ext_of S f = Some a /\ ext_of S f' = Some b /\ ext_le a b).
Proof.
  intros S s s' g g' x x' m HS Hp T T' L L' H.
  destruct (from_str_hex S s g x m HS Hp T L) as [[st f] [E D]].
  destruct (from_str_hex S s' g' x' m HS Hp T' L') as [[st' f'] [E' D']].
  exists st, f, st', f'. split; [exact E|]. split; [exact E'|]. intros N N'.
  exact (delivers_monotone _ _ S m x x' g g' st st' f f' HS (fun _ _ => eq_refl) D D' N N' H).
Qed.

(** ** Printing *)
Lemma on_grid : forall a q e, q <= e -> (IZR a * bpow r10 e = IZR (a * 10 ^ (e - q)) * bpow r10 q)%R.
Proof. intros a q e He. rewrite mult_IZR, <- bpow10_pos by lia. replace e with (e - q + q) at 1 by lia. rewrite bpow_plus. ring. Qed.
Lemma shortened_order : forall P v v' n k n' k', 1 <= P -> shortened P v n k -> shortened P v' n' k' -> (v <= v')%R ->
  (IZR n * bpow r10 k <= IZR n' * bpow r10 k')%R \/
  exists q, last_place P v q /\ last_place P v' q /\ (5 * bpow r10 (P - 1) * bpow r10 q <= v)%R /\
    (IZR n * bpow r10 k = IZR n' * bpow r10 k' + bpow r10 q)%R /\ (IZR n' * bpow r10 k' < v)%R /\ (v' < IZR n * bpow r10 k)%R.
Proof.
  intros P v v' n k n' k' HP [_ _ [q [L [K H]]]] [_ _ [q' [L' [K' H']]]] Hv.
  rewrite (on_grid n q k K) in *. rewrite (on_grid n' q' k' K') in *. set (a := n * 10 ^ (k - q)) in *. set (b := n' * 10 ^ (k' - q')) in *.
  pose proof (bpow_gt_0 r10 q) as Q. pose proof (bpow_gt_0 r10 q') as Q'.
  assert (Ha : a <= 10 ^ P).
  { destruct L as [_ L]. rewrite bpow10_pos in L by lia. assert ((IZR a - / 2) * bpow r10 q < IZR (10 ^ P) * bpow r10 q)%R by (destruct H as [H|[H _]]; lra).
    apply Rmult_lt_reg_r in H0; [|exact Q]. apply Z.lt_succ_r. apply lt_IZR. rewrite succ_IZR. lra. }
  assert (Hb : 10 ^ (P - 1) <= b).
  { destruct L' as [L' _]. rewrite bpow10_pos in L' by lia. assert (IZR (10 ^ (P - 1)) * bpow r10 q' < (IZR b + 1) * bpow r10 q')%R by (destruct H' as [H'|[H' _]]; lra).
    apply Rmult_lt_reg_r in H0; [|exact Q']. apply Z.lt_succ_r. apply lt_IZR. rewrite succ_IZR. lra. }
  assert (Qq : q <= q').
  { destruct (Z_le_gt_dec q q') as [Y|Y]; [exact Y|exfalso]. destruct L as [L _], L' as [_ L']. rewrite <- bpow_plus in L, L'.
    assert (bpow r10 (P + q') <= bpow r10 (P - 1 + q))%R by (apply bpow_le; lia). lra. }
  destruct (Z.eq_dec q q') as [<-|Nq].
  - destruct (Z_le_gt_dec a b) as [Y|Y]; [left; apply Rmult_le_compat_r; [lra|apply IZR_le; exact Y]|right]. exists q.
    split; [exact L|]. split; [exact L'|].
    assert (Y1 : (IZR b + 1 <= IZR a)%R) by (rewrite <- succ_IZR; apply IZR_le; lia).
    assert (Y2 : ((IZR b + 1) * bpow r10 q <= IZR a * bpow r10 q)%R) by (apply Rmult_le_compat_r; lra).
    destruct H' as [H'|[H' F]]; [exfalso; destruct H as [H|[H _]]; lra|].
    destruct H as [H|[H _]]; [|exfalso; lra].
    assert (a = b + 1) as Eab.
    { assert ((IZR a - / 2) * bpow r10 q < (IZR b + 1) * bpow r10 q)%R by lra. apply Rmult_lt_reg_r in H0; [|exact Q].
      apply Z.le_antisymm; [|lia]. apply Z.lt_succ_r. apply lt_IZR. rewrite succ_IZR, plus_IZR. lra. }
    rewrite Eab, plus_IZR in *. split.
    + rewrite bpow10_pos in * by lia. assert (IZR (5 * 10 ^ (P - 1)) * bpow r10 q < (IZR b + 1) * bpow r10 q)%R by (rewrite mult_IZR; lra).
      apply Rmult_lt_reg_r in H0; [|exact Q]. rewrite <- succ_IZR in H0. apply lt_IZR in H0.
      assert (IZR (5 * 10 ^ (P - 1)) * bpow r10 q <= IZR b * bpow r10 q)%R by (apply Rmult_le_compat_r; [lra|apply IZR_le; lia]). rewrite mult_IZR in H1. lra.
    + repeat split; lra.
  - left. apply Rle_trans with (bpow r10 P * bpow r10 q)%R.
    + apply Rmult_le_compat_r; [lra|]. rewrite bpow10_pos by lia. apply IZR_le. exact Ha.
    + apply Rle_trans with (bpow r10 (P - 1) * bpow r10 q')%R.
      * rewrite <- !bpow_plus. apply bpow_le. lia.
      * apply Rmult_le_compat_r; [lra|]. rewrite bpow10_pos by lia. apply IZR_le. exact Hb.
Qed.

(** what is read off the printed text, with the sign taken out *)
Lemma fmt_short : forall S x w p alternate, sem_ok S -> wf S x -> category x = Normal -> 0 <= chosen_width w -> 1 <= chosen_precision S p <= largest_precision ->
  exists s n k, fmt S x w p alternate = Ret s /\ dec_text s (sign x) (if sign x then - (IZR n * bpow r10 k) else IZR n * bpow r10 k)%R /\
    shortened (chosen_precision S p) (Rabs (value S x)) n k /\ (0 < IZR n * bpow r10 k)%R /\ (0 < Rabs (value S x))%R /\
    value S x = (if sign x then - Rabs (value S x) else Rabs (value S x))%R.
Proof.
  intros S x w p alternate HS Hx C Hw HP. destruct (fmt_normal S x w p alternate HS Hx C Hw HP) as [s [E Hs]].
  destruct (printed_reads _ (chosen_precision S p) _ _ _ s ltac:(lia) Hs) as [n [k [Hsh T]]]. exists s, n, k.
  pose proof (value_sign_nonneg S x Hx (or_introl C)) as Q. pose proof (normal_nonzero S x Hx C) as Nz.
  repeat (split; [assumption|]). split; [destruct Hsh as [[N _] _ _]; apply Rmult_lt_0_compat; [apply IZR_lt; exact N|apply bpow_gt_0]|].
  split; [apply Rabs_pos_lt; exact Nz|]. destruct (sign x); [rewrite Rabs_left1 by exact Q; ring|rewrite Rabs_pos_eq by exact Q; reflexivity].
Qed.

Theorem fmt_order : forall S S' x x' w w' p p' alternate alternate' P, sem_ok S -> sem_ok S' -> wf S x -> wf S' x' -> category x = Normal -> category x' = Normal ->
  0 <= chosen_width w -> 0 <= chosen_width w' -> chosen_precision S p = P -> chosen_precision S' p' = P -> 1 <= P <= largest_precision ->
  (value S x <= value S' x')%R ->
  exists s s' y y', fmt S x w p alternate = Ret s /\ fmt S' x' w' p' alternate' = Ret s' /\ dec_text s (sign x) y /\ dec_text s' (sign x') y' /\
    ((y <= y')%R \/
     exists q, last_place P (Rabs (value S x)) q /\ last_place P (Rabs (value S' x')) q /\
       (5 * bpow r10 (P - 1) * bpow r10 q <= Rabs (value S x))%R /\ (5 * bpow r10 (P - 1) * bpow r10 q <= Rabs (value S' x'))%R /\
       y = (y' + bpow r10 q)%R /\ (y' < value S x)%R /\ (value S' x' < y)%R).
Proof.
  intros S S' x x' w w' p p' alternate alternate' P HS HS' Hx Hx' C C' Hw Hw' Ep Ep' HP H.
  destruct (fmt_short S x w p alternate HS Hx C Hw ltac:(rewrite Ep; exact HP)) as [s [n [k [E [T [Sh [Y [V Vx]]]]]]]].
  destruct (fmt_short S' x' w' p' alternate' HS' Hx' C' Hw' ltac:(rewrite Ep'; exact HP)) as [s' [n' [k' [E' [T' [Sh' [Y' [V' Vx']]]]]]]].
  rewrite Ep in Sh. rewrite Ep' in Sh'. exists s, s'. do 2 eexists. split; [exact E|]. split; [exact E'|]. split; [exact T|]. split; [exact T'|].
  rewrite Vx, Vx' in H. destruct (sign x) eqn:G, (sign x') eqn:G'.
  - destruct (shortened_order P _ _ n' k' n k ltac:(lia) Sh' Sh ltac:(lra)) as [X|[q [L [L' [F [X [X1 X2]]]]]]]; [left; lra|right].
    exists q. rewrite Vx at 3. rewrite Vx' at 3. repeat split; try assumption; try lra; apply L || apply L'.
  - left. lra.
  - exfalso. lra.
  - destruct (shortened_order P _ _ n k n' k' ltac:(lia) Sh Sh' ltac:(lra)) as [X|[q [L [L' [F [X [X1 X2]]]]]]]; [left; lra|right].
    exists q. rewrite Vx at 3. rewrite Vx' at 3. repeat split; try assumption; try lra; apply L || apply L'.
Qed.

(** with enough digits the numbers printed are as different as the floats *)
Lemma shortened_rounded : forall S v n k P, sem_ok S -> generic_format r2 (fexp S) v -> 1 <= P -> (0 < v)%R -> 2 ^ PRECISION S < 10 ^ (P - 1) ->
  shortened P v n k -> rounded S NearestTiesToEven (IZR n * bpow r10 k) = v.
Proof.
  intros S v n k P HS Gv HP v0 HE Hsh. apply rounded_near; try assumption; [apply nearest_of; left; reflexivity|].
  pose proof (shortened_error P v n k ltac:(lia) v0 Hsh) as X. apply Rle_trans with (2 := X). apply Rmult_le_compat_l; [apply Rabs_pos|].
  apply Rmult_le_compat_l; [lra|]. rewrite bpow10_pos by lia. apply IZR_le. lia.
Qed.
Lemma fmt_rounded : forall S x w p alternate, sem_ok S -> wf S x -> category x = Normal -> 0 <= chosen_width w -> 1 <= chosen_precision S p <= largest_precision ->
  2 ^ PRECISION S < 10 ^ (chosen_precision S p - 1) ->
  exists s y, fmt S x w p alternate = Ret s /\ dec_text s (sign x) y /\ rounded S NearestTiesToEven y = value S x.
Proof.
  intros S x w p alternate HS Hx C Hw HP HE. destruct (fmt_short S x w p alternate HS Hx C Hw HP) as [s [n [k [E [T [Sh [Y [V Vx]]]]]]]].
  exists s. eexists. split; [exact E|]. split; [exact T|]. destruct (finite_representable S x HS Hx (or_introl C)) as [Gx _].
  pose proof (shortened_rounded S _ n k (chosen_precision S p) HS (generic_format_abs _ _ _ Gx) ltac:(lia) V HE Sh) as R. rewrite Vx.
  destruct (sign x); [|exact R]. rewrite rounded_opp. cbn [round_neg]. rewrite R. reflexivity.
Qed.
Theorem fmt_strict : forall S x x' w w' p p' alternate alternate', sem_ok S -> wf S x -> wf S x' -> category x = Normal -> category x' = Normal ->
  0 <= chosen_width w -> 0 <= chosen_width w' -> 1 <= chosen_precision S p <= largest_precision -> 1 <= chosen_precision S p' <= largest_precision ->
  2 ^ PRECISION S < 10 ^ (chosen_precision S p - 1) -> 2 ^ PRECISION S < 10 ^ (chosen_precision S p' - 1) ->
  (value S x < value S x')%R ->
  exists s s' y y', fmt S x w p alternate = Ret s /\ fmt S x' w' p' alternate' = Ret s' /\ dec_text s (sign x) y /\ dec_text s' (sign x') y' /\ (y < y')%R.
Proof.
  intros S x x' w w' p p' alternate alternate' HS Hx Hx' C C' Hw Hw' HP HP' HE HE' H.
  destruct (fmt_rounded S x w p alternate HS Hx C Hw HP HE) as [s [y [E [T R]]]].
  destruct (fmt_rounded S x' w' p' alternate' HS Hx' C' Hw' HP' HE') as [s' [y' [E' [T' R']]]].
  exists s, s', y, y'. repeat (split; [assumption|]). destruct (Rlt_or_le y y') as [L|L]; [exact L|exfalso].
  pose proof (rounded_mono S NearestTiesToEven y' y HS L). lra.
Qed.
(** which includes the precision used if none is given *)
Theorem fmt_strict_default : forall S x x' w w' alternate alternate', sem_ok S -> wf S x -> wf S x' -> category x = Normal -> category x' = Normal ->
  0 <= chosen_width w -> 0 <= chosen_width w' -> (value S x < value S x')%R ->
  exists s s' y y', fmt S x w None alternate = Ret s /\ fmt S x' w' None alternate' = Ret s' /\ dec_text s (sign x) y /\ dec_text s' (sign x') y' /\ (y < y')%R.
Proof.
  intros S x x' w w' alternate alternate' HS Hx Hx' C C' Hw Hw' H. pose proof (ok_prec S HS) as Kp.
  pose proof (Z.div_mod (PRECISION S * 59) 196 ltac:(lia)). pose proof (Z.mod_pos_bound (PRECISION S * 59) 196 ltac:(lia)).
  pose proof (default_digits (PRECISION S) ltac:(lia)) as D. unfold enough in D.
  assert (B : 1 <= chosen_precision S None <= largest_precision) by (unfold chosen_precision, largest_precision; lia).
  assert (2 ^ PRECISION S < 10 ^ (chosen_precision S None - 1)) by (unfold chosen_precision; replace (2 + PRECISION S * 59 / 196 - 1) with (1 + PRECISION S * 59 / 196) by lia; lia).
  apply fmt_strict; assumption.
Qed.

(** ** Pairs *)
Theorem dd_fmt_strict : forall F, pair_ok F -> forall x x' w w' alternate alternate', canonical_pair F x -> canonical_pair F x' ->
  category (d0 x) = Normal -> category (d0 x') = Normal -> 0 <= chosen_width w -> 0 <= chosen_width w' -> (operand F x < operand F x')%R ->
  exists s s' y y', dd_fmt F x w None alternate = Ret s /\ dd_fmt F x' w' None alternate' = Ret s' /\
    dec_text s (sign (d0 x)) y /\ dec_text s' (sign (d0 x')) y' /\ (y < y')%R.
Proof.
  intros F HF x x' w w' alternate alternate' Hx Hx' C C' Hw Hw' H.
  pose proof (canonical_readable F x Hx) as Rd. pose proof (canonical_readable F x' Hx') as Rd'.
  destruct (to_fallback_reads F HF x Rd) as [u [E Q]]. destruct (to_fallback_reads F HF x' Rd') as [u' [E' Q']].
  unfold dd_fmt. rewrite E, E'. cbn [bind].
  pose proof (widened_category F HF x u Rd Q) as Cu. rewrite C in Cu. destruct (widened_finite F x u Q Hx) as [A [B [V S]]].
  pose proof (widened_category F HF x' u' Rd' Q') as Cu'. rewrite C' in Cu'. destruct (widened_finite F x' u' Q' Hx') as [A' [B' [V' S']]].
  rewrite <- S, <- S'. apply fmt_strict_default; try assumption; [apply W_ok; exact HF|lra].
Qed.

(** ** Samples *)
Lemma disorder : let x := mkFloat 16775168 12 Normal false in let x' := mkFloat 8388608 13 Normal false in
  wf SingleS x /\ wf SingleS x' /\ value SingleS x = 8191%R /\ value SingleS x' = 8192%R /\
  fmt SingleS x None (Some 2) false = Ret (bytes "8.2E+3") /\ fmt SingleS x' None (Some 2) false = Ret (bytes "8.1E+3") /\
  dec_text (bytes "8.2E+3") false 8200 /\ dec_text (bytes "8.1E+3") false 8100.
Proof.
  cbv zeta. split; [sample_wf|]. split; [sample_wf|].
  assert (P : forall n e, value SingleS (mkFloat n e Normal false) = (IZR n * bpow r2 (e - 23))%R) by reflexivity.
  split; [rewrite P; change (bpow r2 (12 - 23)) with (/ 2048)%R; lra|]. split; [rewrite P; change (bpow r2 (13 - 23)) with (/ 1024)%R; lra|].
  split; [vm_compute; reflexivity|]. split; [vm_compute; reflexivity|].
  assert (D : forall d n, digits 10 [56; d] n -> dec_text [56; 46; d; 69; 43; 51] false (IZR n * bpow r10 2)).
  { intros d n H. apply (dec_text_intro [] false); [constructor|]. apply (dec_exp ([56] ++ 46 :: [d]) n 1 69 (43 :: [51]) 3).
    - apply mantissa_point; [exact H|discriminate].
    - right. reflexivity.
    - apply exponent_plus. exact (digits_all [51] eq_refl). }
  replace 8200%R with (82 * bpow r10 2)%R by (change (bpow r10 2) with 100%R; lra). replace 8100%R with (81 * bpow r10 2)%R by (change (bpow r10 2) with 100%R; lra).
  split; apply D; [exact (digits_all [56; 50] eq_refl)|exact (digits_all [56; 49] eq_refl)].
Qed.
Lemma reading_sample : dec_text (bytes "-6.25e-2") true (- (625 * bpow r10 (-4))) /\ dec_text (bytes "0.7") false (7 * bpow r10 (-1)) /\
  (- (625 * bpow r10 (-4)) <= 7 * bpow r10 (-1))%R /\
  from_str_r HalfS (bytes "-6.25e-2") NearestTiesToAway = Ret (Ok (OK, mkFloat 1024 (-4) Normal true)) /\
  from_str_r HalfS (bytes "0.7") NearestTiesToAway = Ret (Ok (INEXACT, mkFloat 1434 (-1) Normal false)).
Proof.
  split; [exact dec_sample|]. split; [exact seven_text|]. split; [pose proof (bpow_gt_0 r10 (-4)); pose proof (bpow_gt_0 r10 (-1)); lra|].
  split; vm_compute; reflexivity.
Qed.
(** neighbours at the bottom of a binade, where decimals are sparsest *)
Lemma strict_sample : let x := mkFloat 8388608 13 Normal true in let x' := mkFloat 16777215 12 Normal true in
  wf SingleS x /\ wf SingleS x' /\ (value SingleS x < value SingleS x')%R /\
  fmt SingleS x None None false = Ret (bytes "-8192") /\ fmt SingleS x' None None false = Ret (bytes "-8191.99951").
Proof.
  cbv zeta. split; [sample_wf|]. split; [sample_wf|]. split.
  - assert (P : forall n e, value SingleS (mkFloat n e Normal true) = (IZR (- n) * bpow r2 (e - 23))%R) by reflexivity.
    rewrite !P, !opp_IZR. change (bpow r2 (12 - 23)) with (/ 2048)%R. change (bpow r2 (13 - 23)) with (/ 1024)%R. lra.
  - split; vm_compute; reflexivity.
Qed.
Lemma printing_disordered : exists x x' s s' y y', wf SingleS x /\ wf SingleS x' /\ category x = Normal /\ category x' = Normal /\
  (value SingleS x < value SingleS x')%R /\ fmt SingleS x None (Some 2) false = Ret s /\ fmt SingleS x' None (Some 2) false = Ret s' /\
  dec_text s (sign x) y /\ dec_text s' (sign x') y' /\ (y' < y)%R.
Proof.
  destruct disorder as [W [W' [V [V' [E [E' [T T']]]]]]].
  exists (mkFloat 16775168 12 Normal false), (mkFloat 8388608 13 Normal false). do 2 eexists. exists 8200%R, 8100%R.
  split; [exact W|]. split; [exact W'|]. split; [reflexivity|]. split; [reflexivity|]. split; [rewrite V, V'; lra|].
  split; [exact E|]. split; [exact E'|]. split; [exact T|]. split; [exact T'|lra].
Qed.
