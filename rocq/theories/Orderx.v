(** * Orderx.v -- consequences of the comparison theorem, encodings of negated
    values, classification *)
From Coq Require Import ZArith Reals List Bool Lia Lra ZifyBool.
From Flocq Require Import Core.
From Verif Require Import Machine Sig SpecSig Limbs SigProofs SigProofs2 SigProofs3 SigProofs4 SigProofs5 Ieee Spec Norm Arith Special Order Bits Formats.
Import ListNotations.
Local Open Scope Z_scope.
Ltac Zify.zify_post_hook ::= idtac.

Theorem eq_f_spec : forall S x y, sem_ok S -> wf S x -> wf S y ->
  exists b, eq_f x y = Ret b /\
    (b = true <-> exists a, ext_of S x = Some a /\ ext_of S y = Some a).
Proof.
  intros S x y HS Wx Wy. destruct (partial_cmp_spec S x y HS Wx Wy) as [r [E H]].
  unfold eq_f. rewrite E. cbn [bind]. eexists. split; [reflexivity|].
  destruct (ext_of S x) as [a|], (ext_of S y) as [b|], r as [c|]; try contradiction.
  - split.
    + destruct c; try discriminate. cbn in H. subst. intros _. exists b. split; reflexivity.
    + intros [d [[= <-] [= <-]]]. destruct c; [reflexivity|exfalso; exact (ext_lt_irrefl _ H)|exfalso; exact (ext_lt_irrefl _ H)].
  - split; [discriminate|]. intros [d [A B]]. congruence.
  - split; [discriminate|]. intros [d [A B]]. congruence.
  - split; [discriminate|]. intros [d [A B]]. congruence.
Qed.

Theorem partial_cmp_refl : forall S x, sem_ok S -> wf S x -> category x <> NaN -> partial_cmp x x = Ret (Some Eq).
Proof.
  intros S x HS Wx Nx. destruct (partial_cmp_spec S x x HS Wx Wx) as [r [E H]]. rewrite E.
  destruct (ext_of S x) as [a|] eqn:A; [|apply ext_of_none in A; contradiction].
  destruct r as [[]|]; try contradiction; try reflexivity; exfalso; exact (ext_lt_irrefl _ H).
Qed.

(** a non-NaN [x] is at most [y] if [partial_cmp] says less or equal *)
Theorem partial_cmp_trans : forall S x y z c d, sem_ok S -> wf S x -> wf S y -> wf S z ->
  partial_cmp x y = Ret (Some c) -> partial_cmp y z = Ret (Some d) -> c <> Gt -> d <> Gt ->
  exists e, partial_cmp x z = Ret (Some e) /\ e <> Gt /\ (e = Eq <-> c = Eq /\ d = Eq).
Proof.
  intros S x y z c d HS Wx Wy Wz E1 E2 N1 N2.
  destruct (partial_cmp_spec S x y HS Wx Wy) as [r1 [F1 H1]]. rewrite E1 in F1. injection F1 as <-.
  destruct (partial_cmp_spec S y z HS Wy Wz) as [r2 [F2 H2]]. rewrite E2 in F2. injection F2 as <-.
  destruct (partial_cmp_spec S x z HS Wx Wz) as [r3 [F3 H3]].
  destruct (ext_of S x) as [a|], (ext_of S y) as [b|], (ext_of S z) as [g|]; try contradiction.
  destruct r3 as [e|]; [|contradiction]. exists e. split; [exact F3|].
  assert (D : ext_compare a g (match c with Eq => d | _ => c end)).
  { destruct c; cbn in H1 |- *; [subst; exact H1 || exact H2| |congruence].
    destruct d; cbn in H2; [subst; exact H1|exact (ext_lt_trans _ _ _ H1 H2)|congruence]. }
  rewrite (ext_compare_unique a g e _ H3 D). destruct c, d; try congruence; repeat split; try congruence; intros [? ?]; congruence.
Qed.

Theorem partial_cmp_antisym : forall S x y c, sem_ok S -> wf S x -> wf S y ->
  partial_cmp x y = Ret (Some c) -> partial_cmp y x = Ret (Some (CompOpp c)).
Proof.
  intros S x y c HS Wx Wy E1.
  destruct (partial_cmp_spec S x y HS Wx Wy) as [r1 [F1 H1]]. rewrite E1 in F1. injection F1 as <-.
  destruct (partial_cmp_spec S y x HS Wy Wx) as [r2 [F2 H2]].
  destruct (ext_of S x) as [a|], (ext_of S y) as [b|]; try contradiction.
  destruct r2 as [d|]; [|contradiction]. rewrite F2. f_equal. f_equal.
  apply (ext_compare_unique b a); [exact H2|]. destruct c; cbn in H1 |- *; [congruence|exact H1|exact H1].
Qed.

(** ** Encodings of negated values *)
Theorem neg_bits : forall bits eb nf, In (bits, eb, nf) interchange_formats ->
  forall x, wf (ieee_semantics bits eb nf) x ->
  exists b, to_bits (ieee_semantics bits eb nf) x = Ret b /\ 0 <= b < 2 ^ bits /\
    to_bits (ieee_semantics bits eb nf) (neg x) =
      Ret (if field_sign bits b then b - 2 ^ (bits - 1) else b + 2 ^ (bits - 1)).
Proof.
  intros bits eb nf H x W. destruct (interchange_ok bits eb nf H) as [HS HB].
  pose proof (geometry bits eb nf HS) as [Ge [Gt _]].
  pose proof (encode_ranges bits eb nf HS x W) as [R1 R2].
  rewrite (to_bits_fields bits eb nf HS HB x W).
  rewrite (to_bits_fields bits eb nf HS HB (neg x)) by exact W.
  eexists. split; [reflexivity|].
  destruct (fields_join bits eb (sign x) (encode_exp bits eb nf x) (encode_frac bits eb x)) as [B1 [B2 _]]; try lia.
  split; [exact B1|]. rewrite B2.
  change (encode_exp bits eb nf (neg x)) with (encode_exp bits eb nf x).
  change (encode_frac bits eb (neg x)) with (encode_frac bits eb x).
  unfold neg, is_negative. cbn [sign]. f_equal. destruct (sign x); cbn [negb b2z]; lia.
Qed.

(** ** Classification *)
Definition count (l : list bool) : nat := length (filter (fun b => b) l).
Theorem classification : forall S x, sem_ok S -> wf S x ->
  exists d n, is_denormal S x = Ret d /\ is_normal S x = Ret n /\
    count [is_zero x; d; n; is_infinite x; is_nan x] = 1%nat /\
    is_finite x = is_zero x || d || n /\ is_finite_non_zero x = d || n.
Proof.
  intros S x HS W.
  destruct (is_denormal_spec S x HS W) as [d [D HD]]. destruct (is_normal_spec S x HS W) as [n [N HN]].
  exists d, n. split; [exact D|]. split; [exact N|].
  assert (Q : d = category_eqb (category x) Normal && negb n).
  { destruct (category x) eqn:C; cbn [category_eqb andb].
    - destruct d; [|reflexivity]. destruct (proj1 HD eq_refl). discriminate.
    - destruct d; [|reflexivity]. destruct (proj1 HD eq_refl). discriminate.
    - destruct d, n; try reflexivity.
      + destruct (proj1 HD eq_refl), (proj1 HN eq_refl). lra.
      + destruct (Rle_or_lt (min_normal S) (Rabs (value S x))) as [L|L].
        * discriminate (proj2 HN (conj eq_refl L)).
        * discriminate (proj2 HD (conj eq_refl L)).
    - destruct d; [|reflexivity]. destruct (proj1 HD eq_refl). discriminate. }
  assert (Q2 : n = true -> category x = Normal) by (intro E; apply HN; exact E).
  unfold count, is_zero, is_infinite, is_nan, is_finite, is_finite_non_zero, is_finite, is_nan, is_infinite, is_zero. subst d.
  destruct (category x), n; try (specialize (Q2 eq_refl); discriminate); repeat split.
Qed.

Theorem constants_spec : forall S, sem_ok S ->
  wf S (largest S) /\ value S (largest S) = max_finite S /\
  wf S (SMALLEST S) /\ value S (SMALLEST S) = min_positive S /\
  wf S (smallest_normalized S) /\ value S (smallest_normalized S) = min_normal S /\
  wf S (ZERO S) /\ category (ZERO S) = Zero /\ sign (ZERO S) = false /\
  is_special S (infinity_of S) false (INFINITY S) /\ default_nan S (NAN S).
Proof.
  intros S HS. pose proof (ok_prec S HS) as Hp. rewrite (largest_eq S HS).
  split; [apply wf_largest; exact HS|]. split; [reflexivity|].
  split; [apply wf_smallest; exact HS|]. split.
  { unfold value, SMALLEST, min_positive. cbn [category sign sig exp signed]. lra. }
  split; [apply wf_smallest_normalized; exact HS|]. split.
  { unfold value, smallest_normalized, min_normal. cbn [category sign sig exp signed].
    rewrite IZR_pow2_bpow by lia. f_equal. lia. }
  split; [apply (wf_zero S false HS)|]. split; [reflexivity|]. split; [reflexivity|].
  split; [|apply NAN_default'; exact HS].
  pose proof (INFINITY_special S false HS) as I. revert I.
  unfold INFINITY, NAN, qnan. destruct (NONFINITE_BEHAVIOR S); exact (fun I => I).
Qed.
