(** * PairMore.v -- pairs: literals, [next_down], signed integers, signs *)
From Coq Require Import ZArith Reals List Bool Lia Lra.
From Flocq Require Import Core.
From Verif Require Import Machine Sig SpecSig Ieee Parse Ppc Spec SpecStr Norm Arith Order Next Integral Int Special Algebra Laws SpecPair Pair PairOps PairBase
  StrSyntax StrTop.
Local Open Scope Z_scope.
Ltac Zify.zify_post_hook ::= idtac.

Section More.
Variable F : Semantics.
Hypothesis HF : pair_ok F.
Local Notation p := (PRECISION F).
Local Notation W := (FallbackS F).
Let WO := W_ok F HF.
Let FO := F_ok F HF.

(** ** Literals *)
Lemma dd_from_str_ok : forall s m st f, from_str_r W s m = Ret (Ok (st, f)) ->
  dd_from_str_r F s m = let! res := map_from_fallback F (Ret (st, f)) in Ret (Ok res).
Proof. intros s m st f E. unfold dd_from_str_r. rewrite E. cbn. unfold map_from_fallback. cbn.
  destruct (from_fallback F f); reflexivity. Qed.
Theorem dd_from_str_hex : forall s g x m, hex_text s g x -> len s + 2 ^ 20 <= 2 ^ 29 -> 2 * p <= 125 ->
  exists o, dd_from_str_r F s m = (let! res := o in Ret (Ok res)) /\
    via_wide F (fun st f => correctly_rounded W m x g (st, f)) o.
Proof.
  intros s g x m H L P. destruct (from_str_hex W s g x m WO ltac:(rewrite W_prec; lia) H L) as [[st f] [E C]].
  exists (map_from_fallback F (Ret (st, f))). split; [apply dd_from_str_ok, E|].
  apply via_wide_intro; [exact HF|exact (proj1 C)|exact C].
Qed.
Theorem dd_from_str_dec : forall s g x m, dec_ok W -> dec_text s g x -> len s < 2 ^ 25 ->
  exists o, dd_from_str_r F s m = (let! res := o in Ret (Ok res)) /\
    via_wide F (fun st f =>
      (exists y, (Rabs (x - y) <= Rabs y * bpow r2 (-124))%R /\ correctly_rounded W m y g (st, f)) /\
      (m = NearestTiesToEven \/ m = NearestTiesToAway ->
         exists st', correctly_rounded W m x g (st', f) /\ (st = st' \/ st = OK \/ st' = OK))) o.
Proof.
  intros s g x m D H L. destruct (from_str_dec W s g x m WO D H L) as [st [f [E [[y [B C]] [N _]]]]].
  exists (map_from_fallback F (Ret (st, f))). split; [apply dd_from_str_ok, E|].
  apply via_wide_intro; [exact HF|exact (proj1 C)|]. split; [exists y; split; assumption|].
  intros M. apply N. destruct M as [-> | ->]; reflexivity.
Qed.
Theorem dd_from_str_inf : forall s g m, inf_text s g ->
  exists r, dd_from_str_r F s m = Ret (Ok (OK, r)) /\ pair_special F Infinity g r.
Proof.
  intros s g m H. destruct (from_str_inf_value W s g m WO H) as [f [E Q]].
  assert (infinity_of W = Infinity) as I by reflexivity.
  rewrite I in Q. destruct (map_ok F HF OK f) as [r [E' SP]].
  - exact (proj1 Q).
  - apply (special_splittable F HF). left. exact (proj1 (proj2 Q)).
  - exists r. split; [rewrite (dd_from_str_ok _ _ _ _ E), E'; reflexivity|]. exact (split_special_inf F f r g Q SP).
Qed.
(** texts outside the grammar are errors; nothing else is *)
Theorem dd_from_str_rejects : forall s m, ~ accepted s -> exists e, dd_from_str_r F s m = Ret (Err e).
Proof.
  intros s m H. destruct (from_str_not_accepted W s m H) as [e E]. exists e. unfold dd_from_str_r. rewrite E. reflexivity.
Qed.
Theorem dd_from_str_accepts : forall s m, dec_ok W -> accepted s -> len s < 2 ^ 25 ->
  exists o, dd_from_str_r F s m = (let! res := o in Ret (Ok res)) /\ via_wide F (fun _ _ => True) o.
Proof.
  intros s m D H L. destruct (from_str_accepts W s m WO D H L) as [st [f [E C]]].
  exists (map_from_fallback F (Ret (st, f))). split; [apply dd_from_str_ok, E|]. apply via_wide_intro; [exact HF|exact C|exact I].
Qed.

(** ** Negation of results *)
Lemma d1_neg : forall r, is_special F Zero false (d1 r) -> d1 (dd_neg r) = d1 r.
Proof.
  intros r [_ [C _]]. unfold dd_neg. rewrite is_finite_non_zero_spec, C. reflexivity.
Qed.
Lemma d0_neg : forall r, d0 (dd_neg r) = neg (d0 r).
Proof. intros r. unfold dd_neg. destruct (is_finite_non_zero (d1 r)); reflexivity. Qed.
Lemma sig_neg : forall x, sig (neg x) = sig x. Proof. intro x. rewrite neg_spec. reflexivity. Qed.
Lemma is_special_neg : forall S c g f, is_special S c g f -> is_special S c (negb g) (neg f).
Proof.
  intros S c g f [Wf [C G]]. split; [apply wf_neg, Wf|]. split; [rewrite category_neg; exact C|rewrite sign_neg, G; reflexivity].
Qed.
Lemma split_of_neg : forall f r, split_of F f r -> split_of F (neg f) (dd_neg r).
Proof.
  intros f r [G H]. split; [rewrite d0_neg, !sign_neg, G; reflexivity|]. rewrite category_neg.
  destruct (category f).
  - destruct H as [A B]. rewrite (d1_neg r B), d0_neg, sign_neg. split; [apply is_special_neg, A|exact B].
  - destruct H as [A [B C]]. rewrite (d1_neg r B), d0_neg, !sig_neg. split; [|split; [exact B|exact C]].
    destruct A as [A1 [A2 A3]]. split; [apply wf_neg, A1|]. split; [rewrite category_neg; exact A2|].
    revert A3. unfold signaling. rewrite category_neg, sig_neg. exact (fun q => q).
  - destruct H as [A B]. split; [apply dd_neg_canonical, A|].
    destruct (dd_neg_spec F r) as [_ [_ [_ [V _]]]]. rewrite V by (destruct A as [_ [[_ A] _]]; exact A). rewrite B, value_neg. reflexivity.
  - destruct H as [A B]. split; [apply dd_neg_canonical, A|].
    destruct (dd_neg_spec F r) as [_ [_ [_ [V _]]]]. rewrite V by (destruct A as [_ [[_ A] _]]; exact A). rewrite B, value_neg. reflexivity.
Qed.
Lemma neg_neg : forall f, neg (neg f) = f.
Proof. intros f. rewrite !neg_spec. destruct f. cbn. rewrite negb_involutive. reflexivity. Qed.
Lemma splittable_neg : forall f, splittable F (neg f) <-> splittable F f.
Proof.
  intros f. unfold splittable. rewrite category_neg. destruct (category f) eqn:C; [tauto| | |].
  - unfold signaling. rewrite category_neg, sig_neg. tauto.
  - rewrite value_neg, rounded_opp_NE, Rabs_Ropp. tauto.
  - rewrite value_neg, rounded_opp_NE, Rabs_Ropp. tauto.
Qed.
Lemma via_wide_neg : forall spec o, via_wide F spec o ->
  via_wide F (fun st f => spec st (neg f)) (let! '(st, r) := o in Ret (st, dd_neg r)).
Proof.
  intros spec o [st [f [Wf [S [A B]]]]]. exists st, (neg f). split; [apply wf_neg, Wf|]. split; [rewrite neg_neg; exact S|]. split.
  - intro H. apply (proj1 (splittable_neg f)) in H. destruct (A H) as [r [-> SP]]. exists (dd_neg r). split; [reflexivity|apply split_of_neg, SP].
  - intro H. rewrite (splittable_neg f) in H. rewrite (B H). reflexivity.
Qed.
Lemma via_wide_weaken : forall (s1 s2 : Z -> Float -> Prop) o, (forall st f, wf W f -> s1 st f -> s2 st f) -> via_wide F s1 o -> via_wide F s2 o.
Proof.
  intros s1 s2 o H [st [f [Wf [S R]]]]. exists st, f. split; [exact Wf|]. split; [apply H; assumption|exact R].
Qed.
Lemma pair_value_neg : forall x, finite (d1 x) -> (pair_value F (dd_neg x) = - pair_value F x)%R.
Proof. intros x H. destruct (dd_neg_spec F x) as [_ [_ [_ [V _]]]]. apply V, H. Qed.
Lemma operand_neg : forall x, finite (d1 x) -> (operand F (dd_neg x) = - operand F x)%R.
Proof. intros x H. unfold operand. rewrite pair_value_neg by exact H. apply rounded_opp_NE. Qed.
Lemma readable_neg : forall x, readable F x -> readable F (dd_neg x).
Proof.
  intros x H. unfold readable in *. rewrite d0_neg, category_neg. destruct (category (d0 x)).
  - exact I.
  - destruct H as [A B]. split; [apply wf_neg, A|]. revert B. unfold signaling. rewrite category_neg, sig_neg. exact (fun q => q).
  - apply dd_neg_canonical, H.
  - apply dd_neg_canonical, H.
Qed.
Lemma pair_ext_neg : forall x a, readable F x -> pair_ext F x = Some a ->
  pair_ext F (dd_neg x) = Some (match a with Fin v => Fin (- v) | PosInf => NegInf | NegInf => PosInf end).
Proof.
  intros x a H. unfold pair_ext, readable in *. rewrite d0_neg, category_neg, sign_neg. destruct (category (d0 x)).
  - intro E. injection E as <-. destruct (sign (d0 x)); reflexivity.
  - discriminate.
  - intro E. injection E as <-. rewrite operand_neg by apply H. reflexivity.
  - intro E. injection E as <-. rewrite operand_neg by apply H. reflexivity.
Qed.
Theorem dd_next_down_spec : forall x a, readable F x -> pair_ext F x = Some a ->
  via_wide F (fun st f => st = OK /\ greatest_below W a f /\ (finite f -> value W f = 0%R -> sign f = false)) (dd_next_down F x).
Proof.
  intros x a H E. unfold dd_next_down.
  eapply via_wide_weaken; [|apply via_wide_neg, (dd_next_up_spec F HF (dd_neg x) _ (readable_neg x H) (pair_ext_neg x a H E))].
  cbn beta. intros st f Wf [A [B C]]. split; [exact A|]. split.
  - rewrite <- (neg_neg f). apply least_above_neg; [exact WO|exact B].
  - intros Ff V. specialize (C (finite_neg f Ff)). rewrite value_neg, sign_neg in C. rewrite V, Ropp_0 in C. specialize (C eq_refl).
    destruct (sign f); [discriminate|reflexivity].
Qed.
Theorem dd_next_down_nan : forall x, readable F x -> category (d0 x) = NaN ->
  exists r, dd_next_down F x = Ret (OK, r) /\ pair_same_nan x r.
Proof.
  intros x H C. destruct (dd_next_up_nan F HF (dd_neg x) (readable_neg x H)) as [r [E [A1 [A2 [A3 A4]]]]].
  { rewrite d0_neg, category_neg. exact C. }
  unfold dd_next_down. rewrite E. cbn [bind]. exists (dd_neg r). split; [reflexivity|]. unfold pair_same_nan.
  rewrite d0_neg in *. rewrite category_neg, !sign_neg, !sig_neg in *. split; [exact A1|]. split; [rewrite A2; apply negb_involutive|]. split; [exact A3|].
  unfold dd_neg. destruct (is_finite_non_zero (d1 r)); cbn [d1]; [rewrite category_neg|]; exact A4.
Qed.

Lemma normal_ext : forall S f g, sem_ok S -> wf S f -> wf S g -> category f = Normal -> category g = Normal ->
  sign f = sign g -> value S f = value S g -> f = g.
Proof.
  intros S f g HS Wf Wg Cf Cg G V.
  assert (bitwise_eq f g = true) as B.
  { apply (bitwise_eq_spec S f g HS Wf Wg). split; [congruence|]. split; [exact G|]. split; [congruence|]. intros _. exact V. }
  unfold bitwise_eq in B. rewrite is_finite_non_zero_spec, Cf, Cg in B. cbn [category_eqb negb orb andb] in B.
  unfold is_negative in B. rewrite G, eqb_reflx in B. cbn [negb] in B.
  destruct (Z.eqb_spec (exp f) (exp g)) as [E|E]; cbn [negb] in B; [|discriminate]. apply Z.eqb_eq in B.
  destruct f, g. cbn in *. subst. reflexivity.
Qed.
Lemma head_sign : forall x, canonical_pair F x -> if sign (d0 x) then (pair_value F x <= 0)%R else (0 <= pair_value F x)%R.
Proof.
  intros x [[W0 W1] [[F0 F1] E]].
  assert (forall v, (v <= 0)%R -> (rounded F NearestTiesToEven v <= 0)%R) as R0.
  { intros v H. rewrite <- (rounded_0 F NearestTiesToEven). apply rounded_mono; assumption. }
  assert (forall v, (0 <= v)%R -> (0 <= rounded F NearestTiesToEven v)%R) as R1.
  { intros v H. rewrite <- (rounded_0 F NearestTiesToEven). apply rounded_mono; assumption. }
  destruct F0 as [C|C].
  - pose proof (normal_nonzero F (d0 x) W0 C) as N. pose proof (value_sign_nonneg F (d0 x) W0 (or_introl C)) as S.
    destruct (sign (d0 x)).
    + apply Rnot_lt_le. intro L. specialize (R1 _ (Rlt_le _ _ L)). lra.
    + apply Rnot_lt_le. intro L. specialize (R0 _ (Rlt_le _ _ L)). lra.
  - assert (pair_value F x = 0)%R as ->; [|destruct (sign (d0 x)); lra].
    pose proof (value_zero F (d0 x) C) as V0. rewrite V0 in E.
    assert (pair_value F x = value F (d1 x)) as V by (unfold pair_value; rewrite V0; ring).
    rewrite V in *. rewrite rounded_format in E by (apply value_format; assumption). symmetry. exact E.
Qed.

(** ** Signed integers *)
Theorem dd_from_i128_r_spec : forall n m, - 2 ^ 127 <= n < 2 ^ 127 ->
  via_wide F (fun st f => correctly_rounded W m (IZR n) false (st, f)) (dd_from_i128_r F n m).
Proof.
  intros n m B. unfold dd_from_i128_r. destruct (Z.ltb_spec n 0) as [L|L].
  - unfold wrap128, LIMB_MOD. rewrite Z.mod_small by lia.
    eapply via_wide_weaken; [|apply via_wide_neg, (dd_from_u128_r_spec F HF (- n) (round_neg m) ltac:(lia))].
    cbn beta. intros st f Wf H.
    apply cr_neg in H. rewrite neg_neg, opp_IZR, Ropp_involutive in H. eapply cr_change_zs; [|exact H]. apply IZR_neq. lia.
  - apply (dd_from_u128_r_spec F HF); lia.
Qed.
Theorem dd_to_i128_r_spec : forall x w m, canonical_pair F x -> (if sign (d0 x) then 1 else 2) <= w <= 128 ->
  exists st n ex, dd_to_i128_r F x w m = Ret (st, n, ex) /\
    let k := rnd_of m (operand F x) in
    (k < - 2 ^ (w - 1) -> st = INVALID_OP /\ n = - 2 ^ (w - 1)) /\
    (2 ^ (w - 1) - 1 < k -> st = INVALID_OP /\ n = 2 ^ (w - 1) - 1) /\
    (- 2 ^ (w - 1) <= k <= 2 ^ (w - 1) - 1 -> n = k /\ (IZR k = operand F x -> st = OK) /\ (IZR k <> operand F x -> st = INEXACT)).
Proof.
  intros x w m Hx Hw. destruct (to_fallback_canonical F HF x Hx) as [u [E [Wu [Fu [V G]]]]].
  assert (dd_to_i128_r F x w m = to_i128_r W u w m) as ->.
  { unfold dd_to_i128_r, to_i128_r. change (dd_is_negative x) with (sign (d0 x)). change (is_negative u) with (sign u). rewrite G.
    destruct (sign (d0 x)) eqn:Gx; [|unfold dd_to_u128_r; rewrite E; reflexivity].
    destruct (to_fallback_canonical F HF (dd_neg x) (dd_neg_canonical F x Hx)) as [u' [E' [Wu' [Fu' [V' G']]]]].
    unfold dd_to_u128_r. rewrite E'. cbn [bind]. rewrite operand_neg, <- V in V' by apply Hx. rewrite d0_neg, sign_neg, Gx, <- G in G'.
    replace (to_u128_r W u' w (round_neg m)) with (to_u128_r W (neg u) w (round_neg m)); [reflexivity|].
    destruct Fu as [C|C].
    - assert (category u' = Normal) as C'.
      { destruct Fu' as [C'|C']; [exact C'|]. rewrite (value_zero W u' C') in V'. pose proof (normal_nonzero W u Wu C). lra. }
      rewrite (normal_ext W (neg u) u' WO); [reflexivity|apply wf_neg, Wu|exact Wu'|rewrite category_neg; exact C|exact C'| |].
      + rewrite sign_neg, G'. reflexivity.
      + rewrite V'. apply value_neg.
    - assert (category u' = Zero) as C'.
      { destruct Fu' as [C'|C']; [|exact C']. rewrite (value_zero W u C) in V'. pose proof (normal_nonzero W u' Wu' C'). lra. }
      unfold to_u128_r, is_negative. rewrite category_neg, C, C', sign_neg, G'. reflexivity. }
  rewrite <- G in Hw. destruct (to_i128_r_spec W u w m WO Wu Hw) as [st [n [ex [-> [D _]]]]]. unfold converted_to_int in D. rewrite V in D.
  exists st, n, ex. split; [reflexivity|]. destruct Fu as [C|C]; rewrite C in D; exact D.
Qed.

(** ** Signs *)
Theorem dd_abs_spec : forall x, canonical_pair F x ->
  canonical_pair F (dd_abs x) /\ sign (d0 (dd_abs x)) = false /\ pair_value F (dd_abs x) = Rabs (pair_value F x).
Proof.
  intros x Hx. pose proof (head_sign x Hx) as S. unfold dd_abs. change (dd_is_negative x) with (sign (d0 x)). destruct (sign (d0 x)) eqn:G.
  - split; [apply dd_neg_canonical, Hx|]. split; [rewrite d0_neg, sign_neg, G; reflexivity|]. rewrite pair_value_neg by apply Hx.
    symmetry. apply Rabs_left1. exact S.
  - split; [exact Hx|]. split; [exact G|]. symmetry. apply Rabs_pos_eq. exact S.
Qed.
Theorem dd_copy_sign_spec : forall x y, canonical_pair F x ->
  let r := dd_copy_sign x y in
  canonical_pair F r /\ sign (d0 r) = sign (d0 y) /\ Rabs (pair_value F r) = Rabs (pair_value F x).
Proof.
  intros x y Hx r. unfold r, dd_copy_sign. change (dd_is_negative x) with (sign (d0 x)). change (dd_is_negative y) with (sign (d0 y)).
  destruct (xorb (sign (d0 x)) (sign (d0 y))) eqn:X.
  - split; [apply dd_neg_canonical, Hx|]. split.
    + rewrite d0_neg, sign_neg. destruct (sign (d0 x)), (sign (d0 y)); try discriminate; reflexivity.
    + rewrite pair_value_neg by apply Hx. apply Rabs_Ropp.
  - split; [exact Hx|]. split; [|reflexivity]. destruct (sign (d0 x)), (sign (d0 y)); try discriminate; reflexivity.
Qed.
End More.
