(** * Order.v -- comparison, sign operations, minimum/maximum, classification *)
From Coq Require Import ZArith Reals List Bool Lia Lra ZifyBool.
From Flocq Require Import Core.
From Verif Require Import Machine Sig SpecSig Limbs SigProofs SigProofs2 SigProofs3 SigProofs4 SigProofs5 Ieee Spec Norm Arith Special.
Import ListNotations.
Local Open Scope Z_scope.

Ltac Zify.zify_post_hook ::= idtac.

(** ** Magnitudes *)
Definition mag (S : Semantics) (x : Float) : R := (IZR (sig x) * bpow r2 (exp x - (PRECISION S - 1)))%R.

Lemma value_mag : forall S x, category x = Normal -> value S x = sgnr (sign x) (mag S x).
Proof. intros. apply value_normal. assumption. Qed.
Lemma mag_pos : forall S x, wf S x -> category x = Normal -> (0 < mag S x)%R.
Proof. intros. apply value_pos; assumption. Qed.

Lemma canonical_exp_lt : forall S s e s' e', sem_ok S -> canonical_normal S s e -> canonical_normal S s' e' -> e < e' ->
  (IZR s * bpow r2 (e - (PRECISION S - 1)) < IZR s' * bpow r2 (e' - (PRECISION S - 1)))%R.
Proof.
  intros S s e s' e' HS [H1 [H2 _]] [H1' [H2' [H3' _]]] Hlt.
  destruct (p_pow S HS) as [P1 [P2 P3]]. destruct HS as [Hp _ _ _].
  apply Rlt_le_trans with (IZR (2 ^ PRECISION S) * bpow r2 (e - (PRECISION S - 1)))%R; [apply bpow_pos_mult_lt; lia|].
  apply Rle_trans with (IZR (2 ^ (PRECISION S - 1)) * bpow r2 (e' - (PRECISION S - 1)))%R; [|apply bpow_pos_mult_le; lia].
  rewrite !IZR_pow2_bpow by lia. apply bpow_le. lia.
Qed.

Lemma is_finite_non_zero_spec : forall x, is_finite_non_zero x = category_eqb (category x) Normal.
Proof. intros x. unfold is_finite_non_zero, is_finite, is_nan, is_infinite, is_zero. destruct (category x); reflexivity. Qed.

Lemma cmp_abs_normal_spec : forall S x y, sem_ok S -> wf S x -> wf S y -> category x = Normal -> category y = Normal ->
  cmp_abs_normal x y = Ret (Rcompare (mag S x) (mag S y)).
Proof.
  intros S x y HS Hx Hy Cx Cy. unfold cmp_abs_normal. rewrite !is_finite_non_zero_spec, Cx, Cy. cbn [category_eqb assertb].
  pose proof (wf_normal_canonical S x Hx Cx) as Kx. pose proof (wf_normal_canonical S y Hy Cy) as Ky.
  unfold mag. destruct (Z.compare_spec (exp x) (exp y)) as [E|E|E].
  - rewrite (cmp_spec [sig x] [sig y] (limb_1 _ (proj1 Hx)) (limb_1 _ (proj1 Hy)) eq_refl).
    rewrite !lval_single, E. f_equal.
    rewrite Rcompare_mult_r by apply bpow_gt_0. symmetry. apply Rcompare_IZR.
  - f_equal. symmetry. apply Rcompare_Lt. apply canonical_exp_lt; assumption.
  - f_equal. symmetry. apply Rcompare_Gt. apply canonical_exp_lt; assumption.
Qed.

(** ** C13 *)
Lemma ext_lt_irrefl : forall a, ~ ext_lt a a.
Proof. intros [|x|] H; cbn in H; try lra; assumption. Qed.
Lemma ext_lt_trans : forall a b c, ext_lt a b -> ext_lt b c -> ext_lt a c.
Proof. intros [|x|] [|y|] [|z|]; cbn; intros; try lra; try tauto. Qed.


Lemma Rcompare_ext : forall a b, ext_compare (Fin a) (Fin b) (Rcompare a b).
Proof.
  intros a b. destruct (Rcompare_spec a b); cbn; [assumption|f_equal; assumption|assumption].
Qed.

Theorem partial_cmp_spec : forall S x y, sem_ok S -> wf S x -> wf S y ->
  exists r, partial_cmp x y = Ret r /\
    match ext_of S x, ext_of S y, r with
    | Some a, Some b, Some c => ext_compare a b c
    | Some _, Some _, None => False
    | _, _, Some _ => False
    | _, _, None => True
    end.
Proof.
  intros S x y HS Hx Hy. unfold partial_cmp, ext_of, is_negative.
  destruct (category x) eqn:Cx; destruct (category y) eqn:Cy;
    try (eexists; split; [reflexivity|exact I]).
  - destruct (sign x), (sign y); cbn; (eexists; split; [reflexivity|cbn; auto]).
  - destruct (sign x), (sign y); cbn; (eexists; split; [reflexivity|cbn; auto]).
  - destruct (sign x), (sign y); cbn; (eexists; split; [reflexivity|cbn; auto]).
  - destruct (sign x), (sign y); cbn; (eexists; split; [reflexivity|cbn; auto]).
  - pose proof (mag_pos S x Hx Cx) as Mx. pose proof (mag_pos S y Hy Cy) as My.
    rewrite !value_mag by assumption.
    destruct (sign x), (sign y); cbn [negb bool_cmp sgnr];
      try (eexists; split; [reflexivity|cbn; lra]);
      rewrite (cmp_abs_normal_spec S) by assumption; cbn [bind]; (eexists; split; [reflexivity|]).
    + unfold ord_reverse. rewrite Rcompare_sym, CompOpp_involutive. rewrite <- (Rcompare_opp (mag S x)). apply Rcompare_ext.
    + apply Rcompare_ext.
  - pose proof (mag_pos S x Hx Cx) as Mx. rewrite value_mag, (value_zero S y) by assumption.
    destruct (sign x); cbn; (eexists; split; [reflexivity|cbn; lra]).
  - destruct (sign x), (sign y); cbn; (eexists; split; [reflexivity|cbn; auto]).
  - pose proof (mag_pos S y Hy Cy) as My. rewrite (value_mag S y), (value_zero S x) by assumption.
    destruct (sign y); cbn; (eexists; split; [reflexivity|cbn; lra]).
  - eexists. split; [reflexivity|]. rewrite !value_zero by assumption. reflexivity.
Qed.

Lemma ext_compare_unique : forall a b c d, ext_compare a b c -> ext_compare a b d -> c = d.
Proof.
  intros a b c d H1 H2. destruct c, d; cbn in *; try reflexivity; exfalso; subst;
    try (eapply ext_lt_irrefl; eassumption); eapply ext_lt_irrefl; eapply ext_lt_trans; eassumption.
Qed.

Theorem lt_f_spec : forall S x y, sem_ok S -> wf S x -> wf S y ->
  exists b, lt_f x y = Ret b /\
    (b = true <-> exists a c, ext_of S x = Some a /\ ext_of S y = Some c /\ ext_lt a c).
Proof.
  intros S x y HS Hx Hy. destruct (partial_cmp_spec S x y HS Hx Hy) as [r [E H]]. unfold lt_f. rewrite E. cbn [bind].
  eexists. split; [reflexivity|]. destruct (ext_of S x) as [a|] eqn:Ea; destruct (ext_of S y) as [c|] eqn:Ec; destruct r as [o|]; try contradiction.
  2-4: split; [discriminate|]; intros [a' [c' [X [Y _]]]]; discriminate.
  split.
  - intro Ho. exists a, c. destruct o; try discriminate. repeat split. exact H.
  - intros [a' [c' [X [Y Z]]]]. inversion X; inversion Y; subst. rewrite (ext_compare_unique a' c' o Lt H Z). reflexivity.
Qed.

(** ** C25: sign operations *)
Theorem neg_spec : forall x, neg x = mkFloat (sig x) (exp x) (category x) (negb (sign x)).
Proof. reflexivity. Qed.
Theorem neg_involutive : forall x, neg (neg x) = x.
Proof. intros [s e c g]. unfold neg, is_negative. cbn. rewrite negb_involutive. reflexivity. Qed.
Theorem abs_spec : forall x, abs x = mkFloat (sig x) (exp x) (category x) false.
Proof. intros [s e c g]. unfold abs, neg, is_negative. cbn. destruct g; reflexivity. Qed.
Theorem copy_sign_spec : forall x y, copy_sign x y = mkFloat (sig x) (exp x) (category x) (sign y).
Proof. exact copy_sign_eq. Qed.
Theorem abs_value : forall S x, wf S x -> value S (abs x) = Rabs (value S x).
Proof.
  intros S x H. rewrite abs_spec. destruct (category x) eqn:E.
  1,2,4: unfold value; cbn [category]; rewrite E, Rabs_R0; reflexivity.
  rewrite !value_normal by (try assumption; reflexivity). cbn [sig exp sign sgnr].
  rewrite sgnr_abs by (apply Rlt_le, value_pos; assumption). reflexivity.
Qed.

(** ** C26: min, max, minimum, maximum *)

(** the value of [r] is the smaller one of [x] and [y] *)

Section MinMax.
Variables (S : Semantics) (x y : Float).
Hypotheses (HS : sem_ok S) (Hx : wf S x) (Hy : wf S y).

Lemma ext_of_none : forall z, ext_of S z = None <-> category z = NaN.
Proof. intros z. unfold ext_of. destruct (category z); split; congruence. Qed.

Lemma not_lt_le : forall a b, ~ ext_lt a b -> ext_le b a.
Proof.
  intros [|a|] [|b|]; cbn; unfold ext_le; cbn; auto; try tauto; intro H.
  destruct (Rlt_le_dec b a); [left; assumption|right; f_equal; lra].
Qed.

Lemma lt_choice : forall u v a b, wf S u -> wf S v -> ext_of S u = Some a -> ext_of S v = Some b ->
  exists c, lt_f u v = Ret c /\ (c = true -> ext_lt a b) /\ (c = false -> ext_le b a).
Proof.
  intros u v a b Hu Hv Ea Eb. destruct (lt_f_spec S u v HS Hu Hv) as [c [E H]]. exists c. split; [assumption|]. split.
  - intro Hc. apply H in Hc. destruct Hc as [a' [b' [X [Y Z]]]]. congruence.
  - intro Hc. apply not_lt_le. intro Hlt. assert (c = true) by (apply H; exists a, b; auto). congruence.
Qed.

Theorem min_spec : exists r, min x y = Ret r /\ (r = x \/ r = y) /\
  match ext_of S x, ext_of S y with
  | None, _ => r = y
  | _, None => r = x
  | Some a, Some b => exists c, ext_of S r = Some c /\ ext_le c a /\ ext_le c b
  end.
Proof.
  unfold min. unfold is_nan. destruct (ext_of S x) as [a|] eqn:Ea.
  2:{ apply ext_of_none in Ea. rewrite Ea. cbn. exists y. auto. }
  assert (category_eqb (category x) NaN = false) as ->.
  { destruct (category x) eqn:E; try reflexivity. apply ext_of_none in E. congruence. }
  destruct (ext_of S y) as [b|] eqn:Eb.
  2:{ apply ext_of_none in Eb. rewrite Eb. cbn. exists x. auto. }
  assert (category_eqb (category y) NaN = false) as ->.
  { destruct (category y) eqn:E; try reflexivity. apply ext_of_none in E. congruence. }
  destruct (lt_choice y x b a Hy Hx Eb Ea) as [c [-> [H1 H2]]]. cbn [bind]. destruct c.
  - exists y. split; [reflexivity|]. split; [auto|]. exists b. split; [assumption|]. unfold ext_le. split; auto.
  - exists x. split; [reflexivity|]. split; [auto|]. exists a. split; [assumption|]. split; [unfold ext_le; auto|auto].
Qed.

Theorem max_spec : exists r, max x y = Ret r /\ (r = x \/ r = y) /\
  match ext_of S x, ext_of S y with
  | None, _ => r = y
  | _, None => r = x
  | Some a, Some b => exists c, ext_of S r = Some c /\ ext_le a c /\ ext_le b c
  end.
Proof.
  unfold max. unfold is_nan. destruct (ext_of S x) as [a|] eqn:Ea.
  2:{ apply ext_of_none in Ea. rewrite Ea. cbn. exists y. auto. }
  assert (category_eqb (category x) NaN = false) as ->.
  { destruct (category x) eqn:E; try reflexivity. apply ext_of_none in E. congruence. }
  destruct (ext_of S y) as [b|] eqn:Eb.
  2:{ apply ext_of_none in Eb. rewrite Eb. cbn. exists x. auto. }
  assert (category_eqb (category y) NaN = false) as ->.
  { destruct (category y) eqn:E; try reflexivity. apply ext_of_none in E. congruence. }
  destruct (lt_choice x y a b Hx Hy Ea Eb) as [c [-> [H1 H2]]]. cbn [bind]. destruct c.
  - exists y. split; [reflexivity|]. split; [auto|]. exists b. split; [assumption|]. unfold ext_le. split; auto.
  - exists x. split; [reflexivity|]. split; [auto|]. exists a. split; [assumption|]. split; [unfold ext_le; auto|auto].
Qed.

Theorem minimum_spec : exists r, minimum x y = Ret r /\ (r = x \/ r = y) /\
  match ext_of S x, ext_of S y with
  | None, _ => r = x
  | _, None => r = y
  | Some a, Some b =>
    (exists c, ext_of S r = Some c /\ ext_le c a /\ ext_le c b) /\
    (category x = Zero -> category y = Zero -> sign r = sign x || sign y)
  end.
Proof.
  unfold minimum. unfold is_nan, is_zero, is_negative. destruct (ext_of S x) as [a|] eqn:Ea.
  2:{ apply ext_of_none in Ea. rewrite Ea. cbn. exists x. auto. }
  assert (category_eqb (category x) NaN = false) as ->.
  { destruct (category x) eqn:E; try reflexivity. apply ext_of_none in E. congruence. }
  destruct (ext_of S y) as [b|] eqn:Eb.
  2:{ apply ext_of_none in Eb. rewrite Eb. cbn. exists y. auto. }
  assert (category_eqb (category y) NaN = false) as ->.
  { destruct (category y) eqn:E; try reflexivity. apply ext_of_none in E. congruence. }
  assert (Hz : forall z, category z = Zero -> ext_of S z = Some (Fin 0)).
  { intros z E. unfold ext_of. rewrite E, value_zero by assumption. reflexivity. }
  destruct (category_eqb (category x) Zero && category_eqb (category y) Zero && xorb (sign x) (sign y)) eqn:Ez.
  - assert (category x = Zero /\ category y = Zero) as [Cx Cy] by (destruct (category x), (category y); cbn in Ez; try discriminate; auto).
    rewrite (Hz x Cx) in Ea. rewrite (Hz y Cy) in Eb. inversion Ea; inversion Eb; subst.
    rewrite Cx, Cy in Ez. cbn [category_eqb andb] in Ez.
    exists (if sign x then x else y). split; [reflexivity|]. split; [destruct (sign x); auto|]. split.
    + exists (Fin 0). split; [destruct (sign x); auto|]. unfold ext_le. auto.
    + intros _ _. destruct (sign x) eqn:Gx, (sign y) eqn:Gy; cbn in *; try discriminate; assumption.
  - destruct (lt_choice y x b a Hy Hx Eb Ea) as [c [-> [H1 H2]]]. cbn [bind].
    assert (category x = Zero -> category y = Zero -> sign x = sign y) as Hs.
    { intros Cx Cy. rewrite Cx, Cy in Ez. cbn in Ez. destruct (sign x), (sign y); cbn in *; congruence. }
    destruct c.
    + exists y. split; [reflexivity|]. split; [auto|]. split; [exists b; split; [assumption|]; unfold ext_le; split; auto|].
      intros Cx Cy. rewrite (Hs Cx Cy). destruct (sign y); reflexivity.
    + exists x. split; [reflexivity|]. split; [auto|]. split; [exists a; split; [assumption|]; split; [unfold ext_le; auto|auto]|].
      intros Cx Cy. rewrite (Hs Cx Cy). destruct (sign y); reflexivity.
Qed.

Theorem maximum_spec : exists r, maximum x y = Ret r /\ (r = x \/ r = y) /\
  match ext_of S x, ext_of S y with
  | None, _ => r = x
  | _, None => r = y
  | Some a, Some b =>
    (exists c, ext_of S r = Some c /\ ext_le a c /\ ext_le b c) /\
    (category x = Zero -> category y = Zero -> sign r = sign x && sign y)
  end.
Proof.
  unfold maximum. unfold is_nan, is_zero, is_negative. destruct (ext_of S x) as [a|] eqn:Ea.
  2:{ apply ext_of_none in Ea. rewrite Ea. cbn. exists x. auto. }
  assert (category_eqb (category x) NaN = false) as ->.
  { destruct (category x) eqn:E; try reflexivity. apply ext_of_none in E. congruence. }
  destruct (ext_of S y) as [b|] eqn:Eb.
  2:{ apply ext_of_none in Eb. rewrite Eb. cbn. exists y. auto. }
  assert (category_eqb (category y) NaN = false) as ->.
  { destruct (category y) eqn:E; try reflexivity. apply ext_of_none in E. congruence. }
  assert (Hz : forall z, category z = Zero -> ext_of S z = Some (Fin 0)).
  { intros z E. unfold ext_of. rewrite E, value_zero by assumption. reflexivity. }
  destruct (category_eqb (category x) Zero && category_eqb (category y) Zero && xorb (sign x) (sign y)) eqn:Ez.
  - assert (category x = Zero /\ category y = Zero) as [Cx Cy] by (destruct (category x), (category y); cbn in Ez; try discriminate; auto).
    rewrite (Hz x Cx) in Ea. rewrite (Hz y Cy) in Eb. inversion Ea; inversion Eb; subst.
    rewrite Cx, Cy in Ez. cbn [category_eqb andb] in Ez.
    exists (if sign x then y else x). split; [reflexivity|]. split; [destruct (sign x); auto|]. split.
    + exists (Fin 0). split; [destruct (sign x); auto|]. unfold ext_le. auto.
    + intros _ _. destruct (sign x) eqn:Gx, (sign y) eqn:Gy; cbn in *; try discriminate; try assumption; reflexivity.
  - destruct (lt_choice x y a b Hx Hy Ea Eb) as [c [-> [H1 H2]]]. cbn [bind].
    assert (category x = Zero -> category y = Zero -> sign x = sign y) as Hs.
    { intros Cx Cy. rewrite Cx, Cy in Ez. cbn in Ez. destruct (sign x), (sign y); cbn in *; congruence. }
    destruct c.
    + exists y. split; [reflexivity|]. split; [auto|]. split; [exists b; split; [assumption|]; unfold ext_le; split; auto|].
      intros Cx Cy. rewrite (Hs Cx Cy). destruct (sign y); reflexivity.
    + exists x. split; [reflexivity|]. split; [auto|]. split; [exists a; split; [assumption|]; split; [unfold ext_le; auto|auto]|].
      intros Cx Cy. rewrite (Hs Cx Cy). destruct (sign y); reflexivity.
Qed.
End MinMax.

(** ** C27: classification *)
Lemma canonical_full : forall S s e, sem_ok S -> canonical_normal S s e ->
  (2 ^ (PRECISION S - 1) <= s <-> (min_normal S <= IZR s * bpow r2 (e - (PRECISION S - 1)))%R).
Proof.
  intros S s e HS [H1 [H2 [H3 _]]]. destruct (p_pow S HS) as [P1 [P2 P3]]. destruct HS as [Hp _ _ _]. unfold min_normal. split; intro H.
  - apply Rle_trans with (IZR (2 ^ (PRECISION S - 1)) * bpow r2 (e - (PRECISION S - 1)))%R; [|apply bpow_pos_mult_le; lia].
    rewrite IZR_pow2_bpow by lia. apply bpow_le. lia.
  - destruct (Z_lt_le_dec s (2 ^ (PRECISION S - 1))) as [Hlt|]; [|assumption]. exfalso.
    assert (IZR s * bpow r2 (e - (PRECISION S - 1)) < bpow r2 (MIN_EXP S))%R; [|lra].
    apply Rlt_le_trans with (IZR (2 ^ (PRECISION S - 1)) * bpow r2 (e - (PRECISION S - 1)))%R; [apply bpow_pos_mult_lt; lia|].
    rewrite IZR_pow2_bpow by lia. apply bpow_le. lia.
Qed.

Lemma top_bit : forall s n, 0 <= n -> 0 <= s < 2 ^ (n + 1) -> Z.testbit s n = (2 ^ n <=? s).
Proof.
  intros s n Hn Hs. rewrite Z.pow_add_r in Hs by lia. change (2 ^ 1) with 2 in Hs.
  pose proof (pow2_gt0 n Hn) as Hp.
  destruct (Z.leb_spec (2 ^ n) s) as [H|H].
  - rewrite Z.testbit_true by assumption. replace (s / 2 ^ n) with 1; [reflexivity|].
    apply Z.div_unique with (s - 2 ^ n); lia.
  - rewrite Z.testbit_false by assumption. rewrite Z.div_small by lia. reflexivity.
Qed.

Theorem is_denormal_spec : forall S x, sem_ok S -> wf S x ->
  exists b, is_denormal S x = Ret b /\
    (b = true <-> category x = Normal /\ (Rabs (value S x) < min_normal S)%R).
Proof.
  intros S x HS Hx. unfold is_denormal. rewrite is_finite_non_zero_spec.
  destruct (category x) eqn:Cx; cbn [category_eqb andb].
  1,2,4: exists false; (split; [reflexivity|]); split; [discriminate|intros [? _]; discriminate].
  pose proof (wf_normal_canonical S x Hx Cx) as Kx. pose proof (canonical_full S _ _ HS Kx) as Hf.
  rewrite value_normal, sgnr_abs by (try assumption; apply Rlt_le, value_pos; assumption).
  pose proof HS as [Hp _ _ _]. destruct (p_pow S HS) as [P1 [P2 P3]]. destruct Kx as [K1 [K2 [K3 _]]].
  destruct (Z.eqb_spec (exp x) (MIN_EXP S)) as [E|E].
  - rewrite get_bit_spec by (try (apply limb_1; apply Hx); change (nbits [sig x]) with 128; lia). cbn [bind].
    rewrite lval_single, top_bit by (replace (PRECISION S - 1 + 1) with (PRECISION S) by lia; lia).
    eexists. split; [reflexivity|]. destruct (Z.leb_spec (2 ^ (PRECISION S - 1)) (sig x)) as [L|L]; cbn [negb].
    + split; [discriminate|]. intros [_ H]. apply Hf in L. lra.
    + split; [|reflexivity]. intros _. split; [reflexivity|]. apply Rnot_le_lt. intro H. apply Hf in H. lia.
  - exists false. split; [reflexivity|]. split; [discriminate|]. intros [_ H]. assert (2 ^ (PRECISION S - 1) <= sig x) as L by lia.
    apply Hf in L. lra.
Qed.

Theorem is_normal_spec : forall S x, sem_ok S -> wf S x ->
  exists b, is_normal S x = Ret b /\
    (b = true <-> category x = Normal /\ (min_normal S <= Rabs (value S x))%R).
Proof.
  intros S x HS Hx. unfold is_normal. destruct (is_denormal_spec S x HS Hx) as [d [-> Hd]]. cbn [bind].
  rewrite is_finite_non_zero_spec. eexists. split; [reflexivity|].
  destruct (category x) eqn:Cx; cbn [category_eqb]; rewrite ?andb_false_r, ?andb_true_r; try (split; [discriminate|intros [? _]; discriminate]).
  destruct d; cbn [negb].
  - split; [discriminate|]. intros [_ H]. destruct (proj1 Hd eq_refl) as [_ H']. lra.
  - split; [|reflexivity]. intros _. split; [reflexivity|]. apply Rnot_lt_le. intro H'.
    assert (false = true) by (apply Hd; auto). discriminate.
Qed.

Lemma bitwise_eq_spec : forall S x y, sem_ok S -> wf S x -> wf S y ->
  bitwise_eq x y = true <->
  category x = category y /\ sign x = sign y /\
  (category x = NaN -> sig x = sig y) /\ (category x = Normal -> value S x = value S y).
Proof.
  intros S x y HS Hx Hy. unfold bitwise_eq. rewrite is_finite_non_zero_spec. unfold is_negative.
  destruct (sign x) eqn:Gx, (sign y) eqn:Gy; cbn [Bool.eqb negb orb]; rewrite ?orb_true_r, ?orb_false_r;
    try (split; [discriminate|intros [_ [? _]]; discriminate]);
    (destruct (category x) eqn:Cx; destruct (category y) eqn:Cy; cbn [category_eqb negb orb andb];
      try (split; [discriminate|intros [? _]; discriminate]);
      try (split; [intros _; repeat split; discriminate|reflexivity])).
  1,3: rewrite Z.eqb_eq; split; [intro; repeat split; auto; discriminate|intros [_ [_ [H _]]]; auto].
  all: rewrite !value_normal, Gx, Gy by assumption; cbn [sgnr];
    (destruct (Z.eqb_spec (exp x) (exp y)) as [E|E]; cbn [negb];
      [rewrite Z.eqb_eq, E; split;
        [intros ->; repeat split; discriminate|intros [_ [_ [_ H]]]; specialize (H eq_refl)]
      |split; [discriminate|intros [_ [_ [_ H]]]; specialize (H eq_refl); exfalso]]).
  all: pose proof (wf_normal_canonical S x Hx Cx) as Kx; pose proof (wf_normal_canonical S y Hy Cy) as Ky.
  - apply Ropp_eq_compat in H. rewrite !Ropp_involutive in H. apply Rmult_eq_reg_r in H; [apply eq_IZR; assumption|apply Rgt_not_eq, bpow_gt_0].
  - destruct (Z_lt_le_dec (exp x) (exp y)); [pose proof (canonical_exp_lt S _ _ _ _ HS Kx Ky ltac:(assumption))|pose proof (canonical_exp_lt S _ _ _ _ HS Ky Kx ltac:(lia))]; lra.
  - apply Rmult_eq_reg_r in H; [apply eq_IZR; assumption|apply Rgt_not_eq, bpow_gt_0].
  - destruct (Z_lt_le_dec (exp x) (exp y)); [pose proof (canonical_exp_lt S _ _ _ _ HS Kx Ky ltac:(assumption))|pose proof (canonical_exp_lt S _ _ _ _ HS Ky Kx ltac:(lia))]; lra.
Qed.

(** the smallest positive number of the format *)

Lemma wf_smallest : forall S g, sem_ok S -> wf S (mkFloat 1 (MIN_EXP S) Normal g).
Proof.
  intros S g HS. destruct (p_pow S HS) as [P1 [P2 P3]]. apply wf_normal; [assumption|]. destruct HS as [Hp Hmin Hmax _].
  split; [lia|]. split; [lia|]. split; [auto|]. intros _ E. lia.
Qed.
Lemma wf_smallest_normalized : forall S g, sem_ok S -> wf S (mkFloat (2 ^ (PRECISION S - 1)) (MIN_EXP S) Normal g).
Proof.
  intros S g HS. destruct (p_pow S HS) as [P1 [P2 P3]]. apply wf_normal; [assumption|]. destruct HS as [Hp Hmin Hmax _].
  split; [lia|]. split; [lia|]. split; [auto|]. intros _ E. lia.
Qed.
Lemma wf_largest : forall S g, sem_ok S -> wf S (mkFloat (max_sig S) (MAX_EXP S) Normal g).
Proof. intros S g HS. apply wf_normal; [assumption|]. apply canonical_max. assumption. Qed.

Lemma bitwise_eq_magnitude : forall S x s e, sem_ok S -> wf S x -> wf S (mkFloat s e Normal false) ->
  bitwise_eq (copy_sign (mkFloat s e Normal false) x) x = true <->
  category x = Normal /\ Rabs (value S x) = (IZR s * bpow r2 (e - (PRECISION S - 1)))%R.
Proof.
  intros S x s e HS Hx Hw. rewrite copy_sign_eq. cbn [sig exp category].
  rewrite (bitwise_eq_spec S) by assumption. cbn [category sign].
  assert (0 < IZR s * bpow r2 (e - (PRECISION S - 1)))%R as Hpos by exact (value_pos S _ Hw eq_refl).
  split.
  - intros [E [_ [_ H]]]. split; [auto|]. rewrite <- H by reflexivity. rewrite value_normal by reflexivity.
    cbn [sig exp sign]. apply sgnr_abs. lra.
  - intros [E H]. split; [auto|]. split; [reflexivity|]. split; [discriminate|]. intros _.
    rewrite (value_normal S x) in * by assumption. rewrite value_normal by reflexivity. cbn [sig exp sign].
    rewrite sgnr_abs in H by (apply Rlt_le, value_pos; assumption). rewrite H. reflexivity.
Qed.

Theorem is_smallest_spec : forall S x, sem_ok S -> wf S x ->
  is_smallest S x = true <-> category x = Normal /\ Rabs (value S x) = min_positive S.
Proof.
  intros S x HS Hx. unfold is_smallest, SMALLEST, min_positive.
  rewrite (bitwise_eq_magnitude S) by (try assumption; apply wf_smallest; assumption). rewrite Rmult_1_l. reflexivity.
Qed.
Theorem is_smallest_normalized_spec : forall S x, sem_ok S -> wf S x ->
  is_smallest_normalized S x = true <-> category x = Normal /\ Rabs (value S x) = min_normal S.
Proof.
  intros S x HS Hx. unfold is_smallest_normalized, smallest_normalized, min_normal.
  rewrite (bitwise_eq_magnitude S) by (try assumption; apply wf_smallest_normalized; assumption).
  rewrite IZR_pow2_bpow by (destruct HS; lia). replace (PRECISION S - 1 + (MIN_EXP S - (PRECISION S - 1))) with (MIN_EXP S) by lia. reflexivity.
Qed.
Theorem is_largest_spec : forall S x, sem_ok S -> wf S x ->
  is_largest S x = true <-> category x = Normal /\ Rabs (value S x) = max_finite S.
Proof.
  intros S x HS Hx. unfold is_largest. rewrite largest_eq by assumption.
  rewrite (bitwise_eq_magnitude S) by (try assumption; apply wf_largest; assumption). reflexivity.
Qed.
Theorem finite_magnitudes : forall S x, sem_ok S -> wf S x -> category x = Normal ->
  (min_positive S <= Rabs (value S x) <= max_finite S)%R.
Proof.
  intros S x HS Hx Cx. split; [|apply value_le_max; assumption].
  rewrite value_normal, sgnr_abs by (try assumption; apply Rlt_le, value_pos; assumption).
  pose proof (wf_normal_canonical S x Hx Cx) as [K1 [K2 _]]. unfold min_positive.
  apply Rle_trans with (IZR 1 * bpow r2 (exp x - (PRECISION S - 1)))%R; [rewrite Rmult_1_l; apply bpow_le; lia|].
  apply bpow_pos_mult_le. lia.
Qed.
