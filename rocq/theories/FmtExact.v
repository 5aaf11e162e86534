(** * FmtExact.v -- the text that [Display] prints, determined completely *)
From Coq Require Import ZArith Lia Reals List Bool Lra.
From Flocq Require Import Core.
From Verif Require Import Machine Sig SpecSig Limbs Ieee Spec Formats Parse SpecStr StrScan StrNum Fmt SpecFmt FmtNum FmtTop FmtEdge.
Import ListNotations.
Local Open Scope Z_scope.
Ltac Zify.zify_post_hook ::= idtac.

Theorem fmt_exact : forall S x w p alternate, sem_ok S -> wf S x -> category x = Normal ->
  0 <= chosen_width w -> 1 <= chosen_precision S p <= largest_precision ->
  exists s, fmt S x w p alternate = Ret s /\ printed_exactly (chosen_width w) (chosen_precision S p) alternate (sign x) (Rabs (value S x)) s.
Proof.
  intros S x w p alternate HS Hx C Hw HP. rewrite fmt_normal_split by assumption. set (P := chosen_precision S p) in *. set (W := chosen_width w) in *.
  destruct (scaled_expansion S x HS Hx C) as [sg [e [E [Hs [He [HL V]]]]]]. rewrite E. cbn [bind]. clear E.
  pose proof V as [_ [Hp _]].
  destruct (reduced_spec P sg e Hs Hp He HL HP) as [b [n [k [E [Hn [Lb [Lb2 [Nb [_ [Hk Hse]]]]]]]]]]. rewrite E. cbn [bind]. clear E.
  destruct (layout_spec W P alternate b n k Hw ltac:(lia) Hn Nb ltac:(lia) ltac:(lia) ltac:(lia)) as [t [E Ht]]. rewrite E. cbn [bind].
  eexists. split; [reflexivity|]. exists (lval sg), e, n, k, t. split; [exact V|]. split; [exact Hse|]. split; [exact Ht|]. reflexivity.
Qed.

(** ** There is only one such text *)
Lemma trim_unique : forall n j n' j', n mod 10 <> 0 -> n' mod 10 <> 0 -> 0 <= j -> 0 <= j' -> n * 10 ^ j = n' * 10 ^ j' -> n = n' /\ j = j'.
Proof.
  assert (W : forall n j n' j', n mod 10 <> 0 -> 0 <= j -> j < j' -> n * 10 ^ j = n' * 10 ^ j' -> False).
  { intros n j n' j' H J J' E. apply H. assert (0 < 10 ^ j) by (apply Z.pow_pos_nonneg; lia).
    replace j' with (j' - j - 1 + 1 + j) in E by lia. rewrite !Z.pow_add_r, Z.pow_1_r, !Z.mul_assoc in E by lia. apply Z.mul_reg_r in E; [|lia].
    rewrite E. apply Z.mod_mul. lia. }
  intros n j n' j' H H' J J' E. destruct (Z.lt_trichotomy j j') as [L|[L|L]].
  - exfalso. apply (W n j n' j'); assumption.
  - subst j'. assert (0 < 10 ^ j) by (apply Z.pow_pos_nonneg; lia). apply Z.mul_reg_r in E; [|lia]. split; [exact E|reflexivity].
  - exfalso. apply (W n' j' n j); try assumption. symmetry. exact E.
Qed.
Lemma width_unique : forall P N w w', 1 <= P -> 1 <= w -> 1 <= w' -> 10 ^ (P - 1) <= N / 10 ^ w < 10 ^ P -> 10 ^ (P - 1) <= N / 10 ^ w' < 10 ^ P -> w = w'.
Proof.
  assert (W : forall P N w w', 1 <= P -> 1 <= w < w' -> 10 ^ (P - 1) <= N / 10 ^ w < 10 ^ P -> 10 ^ (P - 1) <= N / 10 ^ w' < 10 ^ P -> False).
  { intros P N w w' HP H A B.
    assert (E : N / 10 ^ w' = N / 10 ^ w / 10 ^ (w' - w)).
    { rewrite Z.div_div by (try apply Z.pow_nonzero; try apply Z.pow_pos_nonneg; lia). rewrite <- Z.pow_add_r by lia. do 2 f_equal. lia. }
    rewrite E in B. assert (10 <= 10 ^ (w' - w)) by (rewrite <- (Z.pow_1_r 10) at 1; apply Z.pow_le_mono_r; lia).
    assert (10 ^ P = 10 * 10 ^ (P - 1)) by (rewrite <- Z.pow_succ_r by lia; f_equal; lia).
    assert (N / 10 ^ w / 10 ^ (w' - w) < 10 ^ (P - 1)); [|lia]. apply Z.div_lt_upper_bound; [lia|]. nia. }
  intros P N w w' HP H H' A B. destruct (Z.lt_trichotomy w w') as [L|[L|L]]; [|exact L|].
  - exfalso. apply (W P N w w'); try assumption. lia.
  - exfalso. apply (W P N w' w); try assumption. lia.
Qed.
Theorem selected_unique : forall P N e n k n' k', 1 <= P -> selected P N e n k -> selected P N e n' k' -> n = n' /\ k = k'.
Proof.
  intros P N e n k n' k' HP [j T L J K E|w j T L W B J K E] [j' T' L' J' K' E'|w' j' T' L' W' B' J' K' E']; try lia.
  - rewrite <- E' in E. destruct (trim_unique _ _ _ _ T T' J J' E) as [-> ->]. split; [reflexivity|lia].
  - pose proof (width_unique P N w w' HP W W' B B') as Q. subst w'. rewrite <- E' in E. destruct (trim_unique _ _ _ _ T T' J J' E) as [-> ->]. split; [reflexivity|lia].
Qed.

Lemma digit_unique : forall c c' k, digit_char c k -> digit_char c' k -> k < 10 -> c = c'.
Proof. intros c c' k H H' L. destruct H; inversion H'; lia. Qed.
Lemma digit_range : forall c k, digit_char c k -> 0 <= k.
Proof. intros c k []; lia. Qed.
Lemma digits_unique : forall ds ds' n, digits 10 ds n -> digits 10 ds' n -> length ds = length ds' -> ds = ds'.
Proof.
  intros ds ds' n H. revert ds'. induction H as [|ds n c k H IH Hc Hk]; intros ds' H' L.
  - destruct ds'; [reflexivity|discriminate].
  - remember (n * 10 + k) as m eqn:Em. destruct H' as [|ds' n' c' k' H' Hc' Hk']; [rewrite app_length in L; cbn in L; lia|].
    rewrite !app_length in L. cbn in L. pose proof (digit_range _ _ Hc). pose proof (digit_range _ _ Hc').
    assert (n' = n) by lia. assert (k' = k) by lia. subst n' k'. rewrite (IH ds' H' ltac:(lia)). rewrite (digit_unique c c' k Hc Hc' Hk). reflexivity.
Qed.
Lemma digits_below : forall ds n, digits 10 ds n -> 0 <= n < 10 ^ Z.of_nat (length ds).
Proof.
  intros ds n H. induction H as [|ds n c k H IH Hc Hk]; [cbn; lia|]. rewrite app_length, Nat2Z.inj_add. cbn [length]. change (Z.of_nat 1) with 1.
  rewrite Z.pow_add_r, Z.pow_1_r by lia. pose proof (digit_range _ _ Hc). lia.
Qed.
Lemma numeral_unique : forall ds ds' n, numeral ds n -> numeral ds' n -> ds = ds'.
Proof.
  assert (W : forall ds ds' n, numeral ds n -> numeral ds' n -> (length ds < length ds')%nat -> False).
  { intros ds ds' n [H [_ B]] [H' [_ B']] L. pose proof (digits_below _ _ H). 
    assert (10 ^ Z.of_nat (length ds) <= 10 ^ (Z.of_nat (length ds') - 1)) by (apply Z.pow_le_mono_r; lia). lia. }
  intros ds ds' n H H'. destruct (Nat.lt_trichotomy (length ds) (length ds')) as [L|[L|L]].
  - exfalso. apply (W ds ds' n); assumption.
  - apply (digits_unique ds ds' n); [apply H|apply H'|exact L].
  - exfalso. apply (W ds' ds n); assumption.
Qed.
Lemma exponent_unique : forall least e t t', exponent_text least e t -> exponent_text least e t' -> t = t'.
Proof.
  assert (W : forall least n (ds ds' : list Z), digits 10 ds n -> least <= Z.of_nat (length ds) -> (length ds < length ds')%nat ->
    Z.of_nat (length ds') = least \/ 10 ^ (Z.of_nat (length ds') - 1) <= n -> False).
  { intros least n ds ds' H M L [Q|Q]; [lia|]. pose proof (digits_below _ _ H).
    assert (10 ^ Z.of_nat (length ds) <= 10 ^ (Z.of_nat (length ds') - 1)) by (apply Z.pow_le_mono_r; lia). lia. }
  intros least e t t' [ds [-> [H [M Q]]]] [ds' [-> [H' [M' Q']]]]. f_equal.
  destruct (Nat.lt_trichotomy (length ds) (length ds')) as [L|[L|L]].
  - exfalso. apply (W least (Z.abs e) ds ds'); assumption.
  - apply (digits_unique ds ds' (Z.abs e)); assumption.
  - exfalso. apply (W least (Z.abs e) ds' ds); assumption.
Qed.
Lemma app_halves : forall (a b c d : list Z), a ++ b = c ++ d -> length b = length d -> a = c /\ b = d.
Proof.
  induction a as [|x a IH]; intros b [|y c] d H L.
  - split; [reflexivity|exact H].
  - exfalso. cbn in H. subst b. cbn in L. rewrite app_length in L. lia.
  - exfalso. cbn in H. subst d. cbn in L. rewrite app_length in L. lia.
  - cbn in H. assert (x = y) by congruence. subst y. destruct (IH b c d ltac:(congruence) L) as [-> ->]. split; reflexivity.
Qed.
Theorem layout_unique : forall width P alternate n k t t', layout width P alternate n k t -> layout width P alternate n k t' -> t = t'.
Proof.
  intros width P alternate n k t t' H H'.
  destruct H as [c r x Hn Hs Hx|ds Hn Hs Hk|ip fp Hn Hs Hi Hl Hk|ds Hn Hs Hl];
    destruct H' as [c' r' x' Hn' Hs' Hx'|ds' Hn' Hs' Hk'|ip' fp' Hn' Hs' Hi' Hl' Hk'|ds' Hn' Hs' Hl'];
    pose proof (numeral_unique _ _ _ Hn Hn') as Q.
  - assert (c = c') by congruence. assert (r = r') by congruence. subst c' r'. rewrite (exponent_unique _ _ _ _ Hx Hx'). reflexivity.
  - rewrite Q in Hs. contradiction.
  - rewrite Q in Hs. contradiction.
  - rewrite Q in Hs. contradiction.
  - rewrite Q in Hs. contradiction.
  - rewrite Q. reflexivity.
  - lia.
  - exfalso. destruct Hn' as [_ [E _]]. destruct ds'; [contradiction|cbn in Hl'; lia].
  - rewrite Q in Hs. contradiction.
  - lia.
  - destruct (app_halves ip fp ip' fp' Q ltac:(lia)) as [-> ->]. reflexivity.
  - exfalso. rewrite <- Q, app_length in Hl'. destruct ip; [contradiction|cbn in Hl'; lia].
  - rewrite Q in Hs. contradiction.
  - exfalso. destruct Hn as [_ [E _]]. destruct ds; [contradiction|cbn in Hl; lia].
  - exfalso. rewrite Q, app_length in Hl. destruct ip'; [contradiction|cbn in Hl; lia].
  - rewrite Q. reflexivity.
Qed.
Theorem printed_unique : forall width P alternate g v s s', 1 <= P ->
  printed_exactly width P alternate g v s -> printed_exactly width P alternate g v s' -> s = s'.
Proof.
  intros width P alternate g v s s' HP [N [e [n [k [t [V [H [L ->]]]]]]]] [N' [e' [n' [k' [t' [V' [H' [L' ->]]]]]]]].
  destruct (expansion_unique _ _ _ _ _ V V') as [-> ->]. destruct (selected_unique _ _ _ _ _ _ _ HP H H') as [-> ->].
  rewrite (layout_unique _ _ _ _ _ _ _ L L'). reflexivity.
Qed.
Theorem fmt_is : forall S x w p alternate, sem_ok S -> wf S x -> category x = Normal ->
  0 <= chosen_width w -> 1 <= chosen_precision S p <= largest_precision ->
  forall s, fmt S x w p alternate = Ret s <-> printed_exactly (chosen_width w) (chosen_precision S p) alternate (sign x) (Rabs (value S x)) s.
Proof.
  intros S x w p alternate HS Hx C Hw HP s. destruct (fmt_exact S x w p alternate HS Hx C Hw HP) as [s' [E Q]]. rewrite E. split.
  - intro H. congruence.
  - intro H. rewrite (printed_unique _ _ _ _ _ _ _ (proj1 HP) H Q). reflexivity.
Qed.
